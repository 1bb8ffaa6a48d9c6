(** * From files to histories of the directory *)
From Coq Require Import Sorting.Sorted.
From Verif Require Import CBase CBaseFacts SearchModel SearchSpec SearchProofs PathModel PathSpec PathProofs
  KeyTableModel KeyTableProofs BinDirModel BinDirSpec BinDirProofs BinModel BinSpec BinProofs TimedModel TimedSpec FilesSpec.

(** ** A history determines its directory *)
Fixpoint esize (e : entry) : nat := match e with File _ _ _ _ _ => 1 | Folder _ cs => S (list_sum (map esize cs)) end.
Definition dsize (cs : list entry) : nat := list_sum (map esize cs).

Lemma strict_same : forall l l' : list (list Z), names_strict l -> names_strict l' -> (forall n, In n l <-> In n l') -> l = l'.
Proof.
  induction l as [|a l IH]; intros [|a' l'] Hs Hs' Hi.
  - reflexivity.
  - exfalso. apply (Hi a'). left. reflexivity.
  - exfalso. apply (Hi a). left. reflexivity.
  - inversion Hs as [|? ? S1 F1]; subst. inversion Hs' as [|? ? S2 F2]; subst. rewrite Forall_forall in F1, F2.
    assert (a = a') as ->.
    { destruct (proj1 (Hi a) (or_introl eq_refl)) as [Q|Q]; [congruence|]. destruct (proj2 (Hi a') (or_introl eq_refl)) as [Q'|Q']; [congruence|].
      exfalso. apply (bytes_lt_irrefl a). eapply bytes_lt_trans; [apply F1; exact Q'|apply F2; exact Q]. }
    f_equal. apply IH; auto. intros n. split; intros I.
    + destruct (proj1 (Hi n) (or_intror I)) as [<-|Q]; [|exact Q]. exfalso. apply (bytes_lt_irrefl a'). apply F1. exact I.
    + destruct (proj2 (Hi n) (or_intror I)) as [<-|Q]; [|exact Q]. exfalso. apply (bytes_lt_irrefl a'). apply F2. exact I.
Qed.

Lemma good_find cs e : good cs -> In e cs -> find_name (ename e) cs = Some e.
Proof. intros G I. apply In_nth_error in I as (i & I). eapply good_nth; eauto. Qed.

Lemma tree_eq : forall k d d', dsize d <= k -> wf d -> wf d' -> (forall p, nd d p = nd d' p) -> d = d'.
Proof.
  induction k as [k IH] using (well_founded_induction lt_wf). intros d d' Hk W W' H.
  pose proof (wf_good _ W) as G. pose proof (wf_good _ W') as G'.
  assert (Hn : map ename d = map ename d').
  { apply strict_same; [apply G|apply G'|]. intros n. specialize (H [n]). rewrite !nd_cons in H. cbn [node_of] in H.
    destruct (find_name n d) as [e|] eqn:E; destruct (find_name n d') as [e'|] eqn:E'; try discriminate.
    - apply find_name_some in E as [I <-], E' as [I' En]. split; intros _; [rewrite <- En|]; apply in_map; assumption.
    - apply find_name_none in E, E'. tauto. }
  assert (He : forall e e', In e d -> In e' d' -> ename e = ename e' -> e = e').
  { intros e e' I I' En. pose proof (good_find _ _ G I) as F. pose proof (good_find _ _ G' I') as F'.
    assert (Hp : forall p, node_of e p = node_of e' p). { intros p. specialize (H (ename e :: p)). rewrite !nd_cons, F, En, F' in H. exact H. }
    pose proof (Hp []) as K. cbn [node_of] in K. destruct e as [n vt sz fi ps|n cs]; destruct e' as [n' vt' sz' fi' ps'|n' cs']; cbn [kind ename] in *; try discriminate.
    - congruence.
    - subst n'. f_equal. apply (IH (dsize cs)) with (d := cs); [|reflexivity| | |].
      + apply in_split in I as (a & b & ->). unfold dsize in Hk |- *. rewrite map_app, list_sum_app in Hk. cbn [map list_sum fold_right esize] in Hk. change (fold_right Nat.add 0) with list_sum in Hk. lia.
      + exact (wf_sub _ _ _ _ W F).
      + exact (wf_sub _ _ _ _ W' F').
      + intros p. specialize (Hp p). rewrite !node_folder in Hp. exact Hp. }
  clear - Hn He. revert d' Hn He. induction d as [|e d IH]; intros [|e' d'] Hn He; try discriminate; [reflexivity|].
  cbn [map] in Hn. injection Hn as Q1 Q2. f_equal; [apply He; [left; reflexivity|left; reflexivity|exact Q1]|].
  apply IH; [exact Q2|]. intros x x' I I'. apply He; right; assumption.
Qed.

Lemma denotes_unique ops d d' : noclash ops -> denotes ops d -> denotes ops d' -> d = d'.
Proof.
  intros Nc (W & D) (W' & D'). apply (tree_eq (dsize d)); auto. intros p. specialize (D p). specialize (D' p).
  destruct p as [|n p]; [reflexivity|].
  destruct (nd d (n :: p)) as [[i|]|], (nd d' (n :: p)) as [[i'|]|].
  - pose proof (last_record_unique _ _ _ _ D D'). congruence.
  - exfalso. destruct D' as [D'|D']; [discriminate|]. apply last_record_in in D. exact (Nc _ _ D D').
  - exfalso. apply last_record_in in D. exact (proj1 D' _ D).
  - exfalso. destruct D as [D|D]; [discriminate|]. apply last_record_in in D'. exact (Nc _ _ D' D).
  - reflexivity.
  - exfalso. destruct D as [D|D]; [discriminate|]. exact (proj2 D' D).
  - exfalso. apply last_record_in in D'. exact (proj1 D _ D').
  - exfalso. destruct D' as [D'|D']; [discriminate|]. exact (proj2 D D').
  - reflexivity.
Qed.

(** ** The history of files *)
Record told (files : list bfile) (b : binout) (ops : list op) : Prop := {
  told_ok : history_ok ops;
  told_run : exists cur, run [] None ops = OK (b_dir b, cur);
  told_folders : folder_paths ops = nonroot (all_visited files);
  told_records : Forall2 (rel_files (b_files b)) (records [] ops) (all_stored files);
  told_files : b_files b = map (fun f => Some (snd (on_disk f))) files;
  told_all : Forall file_ok files
}.

Lemma opened fuel pattern files bad b : usable fuel files bad -> binout_open fuel pattern (map on_disk files ++ bad) = OK b -> exists ops, told files b ops.
Proof.
  intros (Ne & L & Fo & Nc & Fu & Rj) E. destruct (open_sim2 pattern files bad fuel Ne L Fo Nc Fu Rj) as (b' & ops & errs & E' & _ & _ & Bf & D & H & Vf & R).
  rewrite E' in E. injection E as <-. exists ops. split; auto.
  destruct (history_run ops H) as (dir & cur & Er & D2). exists cur. rewrite Er. rewrite (denotes_unique ops dir (b_dir b')); auto. exact (proj2 (proj2 (proj2 H))).
Qed.

Section told.
  Context {files : list bfile} {b : binout} {ops : list op} (T : told files b ops).

  Lemma told_folder p : p <> [] -> is_folder_path ops p <-> has_folder files p.
  Proof.
    intros Np. unfold is_folder_path. rewrite (told_folders _ _ _ T). split.
    - intros (v & I & P). right. exists v. split; [|exact P]. apply filter_In in I. apply I.
    - intros [Q|(v & I & P)]; [congruence|]. exists v. split; [|exact P]. apply filter_In. split; [exact I|].
      destruct v as [|]; [|reflexivity]. destruct P as (r & P). destruct p; [congruence|discriminate].
  Qed.
  Lemma told_variable p : (exists i, In (p, i) (records [] ops)) <-> has_variable files p.
  Proof.
    pose proof (told_records _ _ _ T) as R. split.
    - intros (i & I). unfold has_variable. induction R as [|x y l m P R IH]; [contradiction|]. destruct I as [->|I].
      + destruct y as [q v]. exists v. left. f_equal. symmetry. exact (proj1 P).
      + destruct (IH I) as (v & Iv). exists v. right. exact Iv.
    - intros (v & I). destruct (Forall2_in_r _ _ _ _ R I) as ([q i] & Iq & P). exists i. assert (q = p) as -> by (apply (proj1 P)). exact Iq.
  Qed.
  Lemma told_entry p : p <> [] -> exists_path ops p <-> has_entry files p.
  Proof. intros Np. unfold exists_path, has_entry. rewrite told_folder, told_variable by assumption. reflexivity. Qed.

  Lemma told_root_entry p n : exists_path ops (p ++ [n]) <-> has_entry files (p ++ [n]).
  Proof. apply told_entry. destruct p; discriminate. Qed.

  Lemma told_last p t bytes : holds files p t bytes -> exists size fi pos,
    last_record (records [] ops) p (Some (t, size, fi, pos)) /\ size = Z.of_nat (length bytes) /\ has_bytes (b_files b) (t, size, fi, pos) bytes.
  Proof.
    intros H. pose proof (told_records _ _ _ T) as R. destruct H as (a' & c' & E & Nb).
    assert (exists o, last_record (records [] ops) p o) as (o & Lo).
    { clear. induction (records [] ops) as [|[q i] l (o & IH)]; [exists None; intros j []|]. destruct o as [j|].
      - exists (Some j). destruct IH as (a & c & -> & N). exists ((q, i) :: a), c. auto.
      - destruct (list_eq_dec (list_eq_dec Z.eq_dec) q p) as [->|Nq].
        + exists (Some i). exists [], l. auto.
        + exists None. intros j [Q|Q]; [injection Q as -> _; congruence|exact (IH j Q)]. }
    destruct (last_rel _ _ _ _ _ R Lo) as (o' & Ls & M).
    assert (o' = Some (t, bytes)) as ->.
    { destruct o' as [v|]; cbn in Ls.
      - destruct Ls as (a & c & E2 & N2). rewrite E in E2. clear - E2 Nb N2. revert a E2. induction a' as [|x a' IH]; intros [|y a] E2; cbn in E2; injection E2 as Q1 Q2.
        + congruence.
        + exfalso. apply (Nb v). rewrite Q2. apply in_or_app. right. left. reflexivity.
        + exfalso. apply (N2 (t, bytes)). rewrite <- Q2. apply in_or_app. right. left. reflexivity.
        + apply (IH a). exact Q2.
      - exfalso. apply (Ls (t, bytes)). rewrite E. apply in_or_app. right. left. reflexivity. }
    destruct o as [[[[vt sz] fi] pos]|]; [|contradiction]. destruct M as (_ & -> & -> & a & c & Nf & ->). cbn [snd] in *.
    exists (Z.of_nat (length bytes)), fi, (Z.of_nat (length a)). split; [exact Lo|]. split; [reflexivity|].
    exists (a ++ bytes ++ c). split; [exact Nf|]. rewrite (told_files _ _ _ T) in Nf. pose proof (files_small files _ a (bytes ++ c) (told_all _ _ _ T) Nf).
    split; [lia|]. rewrite !app_length. split; [lia|]. split; [lia|]. rewrite !Nat2Z.id. rewrite skipn_app, skipn_all, Nat.sub_diag. cbn [app skipn].
    rewrite firstn_app, Nat.sub_diag, firstn_all. cbn [firstn]. rewrite app_nil_r. reflexivity.
  Qed.
  Lemma told_no_variable p : ~ has_variable files p -> last_record (records [] ops) p None.
  Proof. intros H i I. apply H. apply told_variable. exists i. exact I. Qed.

  Lemma told_tidy p : tidy ops p <-> only_steps files p.
  Proof. unfold tidy, only_steps. split; intros H t E; apply H; apply told_root_entry; exact E. Qed.
  Lemma told_steps p l : steps_of ops p l <-> time_steps files p l.
  Proof.
    unfold steps_of, time_steps. split; intros (A & B); (split; [exact A|]); intros d; specialize (B d).
    - rewrite <- told_root_entry. exact B.
    - rewrite told_root_entry. exact B.
  Qed.
  Lemma told_alike p rel d d' : same_entries ops p rel d d' <-> alike files p rel d d'.
  Proof.
    unfold same_entries, alike. split; intros H q n P; specialize (H q n P).
    - rewrite <- !told_entry by (destruct p; discriminate). exact H.
    - rewrite !told_entry by (destruct p; discriminate). exact H.
  Qed.
  Lemma told_plain : plain_names files -> specials_are_folders ops.
  Proof.
    intros H n i I. assert (exists p, In (p ++ [n], i) (records [] ops)) as (p & Ip).
    { clear - I. enough (K : forall c, exists p, In (p ++ [n], i) (records c ops)) by apply K. induction ops as [|[q|m j] l IH]; intros c; [contradiction| |].
      - destruct I as [Q|I]; [discriminate|]. cbn [records]. apply (IH I).
      - cbn [records]. destruct I as [Q|I]; [injection Q as -> ->; exists c; left; reflexivity|]. destruct (IH I c) as (p & Ip). exists p. right. exact Ip. }
    assert (has_variable files (p ++ [n])) as (v & Iv) by (apply told_variable; eauto). exact (H p n v Iv).
  Qed.
End told.
