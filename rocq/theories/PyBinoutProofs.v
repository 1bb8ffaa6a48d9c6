From Coq Require Import Sorting.Sorted Sorting.Permutation.
From Verif Require Import CBase CBaseFacts SearchModel SearchSpec SearchProofs PathModel PathSpec PathProofs
  KeyTableModel KeyTableProofs BinDirModel BinDirSpec BinDirProofs BinModel TimedModel TimedSpec TimedProofs PyBinoutModel PyBinoutSpec.
From Verif Require BinSpec BinProofs PropBinDir.

Lemma path_text_elements els : Forall proper els -> elements (path_text els) = els.
Proof. intros F. destruct els as [|x els]; [reflexivity|]. apply (elements_path_of (x :: els)). exact F. Qed.
Lemma path_text_absolute els : absolute (path_text els).
Proof. destruct els as [|x els]; [exists []; reflexivity|]. exists (x ++ concat (map (cons SEP) els)). reflexivity. Qed.
Lemma path_text_ascii els : Forall ascii_str els -> ascii_str (path_text els).
Proof.
  intros F. assert (S1 : ascii_str [SEP]) by (repeat constructor). destruct els as [|x els]; [exact S1|].
  unfold path_text. set (l := x :: els) in *. clearbody l. induction F as [|y l Fy F IH]; cbn [map concat app]; [constructor|].
  constructor; [unfold SEP; lia|]. apply Forall_app. split; assumption.
Qed.
Lemma path_text_snoc p x : p <> [] -> path_text p ++ SEP :: x = path_text (p ++ [x]).
Proof.
  intros N. destruct p as [|y p]; [congruence|]. unfold path_text. cbn [app]. change (y :: p ++ [x]) with ((y :: p) ++ [x]). rewrite map_app, concat_app. cbn [map concat]. rewrite app_nil_r. reflexivity.
Qed.

(** ** Resolution *)
Lemma folder_prefix ops p q : is_folder_path ops (p ++ q) -> is_folder_path ops p.
Proof. intros (f & I & (r & ->)). eexists. split; [exact I|]. exists (q ++ r). rewrite app_assoc. reflexivity. Qed.
Lemma meets_folder ops o rest q : forall p r tm, is_folder_path ops (p ++ q) -> simple_meets ops p r tm (q ++ rest) o -> simple_meets ops (p ++ q) (r ++ q) tm rest o.
Proof.
  induction q as [|e q IH]; intros p r tm F M; [rewrite !app_nil_r; exact M|].
  cbn [app simple_meets] in M. destruct M as (M & _). assert (Fe : is_folder_path ops (p ++ [e])) by (apply (folder_prefix ops (p ++ [e]) q); rewrite <- app_assoc; exact F).
  destruct (M (or_introl Fe)) as (M1 & _). specialize (M1 Fe). apply IH in M1; [|rewrite <- app_assoc; exact F]. rewrite <- !app_assoc in M1. exact M1.
Qed.
Lemma meets_var ops o q : forall p r tm t size fi pos, q <> [] -> (forall a, a <> [] -> prefix a q -> a <> q -> is_folder_path ops (p ++ a)) ->
  last_record (records [] ops) (p ++ q) (Some (t, size, fi, pos)) -> simple_meets ops p r tm q o -> o = Some (r ++ q, t, tm).
Proof.
  induction q as [|e q IH]; intros p r tm t size fi pos N F L M; [congruence|]. cbn [simple_meets] in M. destruct M as (M & _). destruct q as [|e' q].
  - destruct M as (_ & M); [right; eexists; apply last_record_in; exact L|]. exact (M _ _ _ _ L).
  - assert (Fe : is_folder_path ops (p ++ [e])). { apply (F [e]); [discriminate|exists (e' :: q); reflexivity|discriminate]. }
    destruct (M (or_introl Fe)) as (M1 & _). specialize (M1 Fe). rewrite (IH (p ++ [e]) (r ++ [e]) tm t size fi pos); [rewrite <- app_assoc; reflexivity|discriminate| |rewrite <- app_assoc; exact L|exact M1].
    intros a Na (c & E) Ne. rewrite <- app_assoc. apply (F (e :: a)); [discriminate|exists c; cbn; rewrite E; reflexivity|intros Q; apply Ne; congruence].
Qed.
(** The folders above a record. *)
Lemma record_above ops q i : In (q, i) (records [] ops) -> forall a, a <> [] -> prefix a q -> a <> q -> is_folder_path ops a.
Proof.
  intros I a Na (c & E) Ne. destruct (records_name _ _ _ _ I) as (f & n & Q & _ & If). destruct (exists_last (l := c)) as (c' & x & ->); [intros ->; apply Ne; rewrite E, app_nil_r; reflexivity|].
  rewrite Q, app_assoc in E. apply app_inj_tail in E as (E & _). destruct If as [->|If]; [destruct a; [congruence|discriminate]|]. exists f. split; [exact If|]. exists c'. exact E.
Qed.
Lemma meets_start ops fld rest o : is_folder_path ops fld -> fld <> [] -> simple_path_meets ops (fld ++ rest) o -> simple_meets ops fld fld false rest o.
Proof.
  intros F N M. destruct fld as [|x fld]; [congruence|]. cbn [app simple_path_meets] in M. destruct M as (M & _).
  assert (Fx : is_folder_path ops [x]) by (apply (folder_prefix ops [x] fld); exact F). specialize (M Fx). apply (meets_folder ops o rest fld [x] [x] false) in M; [exact M|exact F].
Qed.
Lemma first_of_steps ops p steps : steps_of ops p steps -> steps <> [] -> first_step ops p (List.hd [] steps).
Proof.
  intros (St & In0) N. destruct steps as [|d l]; [congruence|]. cbn [List.hd]. destruct (proj1 (In0 d) (or_introl eq_refl)) as (A & B). split; [exact A|]. split; [exact B|].
  intros d' D' E'. destruct (proj2 (In0 d') (conj D' E')) as [->|I]; [left; reflexivity|]. right. inversion St as [|? ? _ F]; subst. rewrite Forall_forall in F. apply F. exact I.
Qed.
Lemma resolve_timed ops fld rel steps o t size fi pos : is_folder_path ops fld -> fld <> [] -> rel <> [] -> ~ exists_path ops (fld ++ [List.hd [] rel]) -> ~ exists_path ops (fld ++ [bs "metadata"; List.hd [] rel]) ->
  steps_of ops fld steps -> steps <> [] -> last_record (records [] ops) (fld ++ List.hd [] steps :: rel) (Some (t, size, fi, pos)) ->
  simple_path_meets ops (fld ++ rel) o -> o = Some (fld ++ rel, t, true).
Proof.
  intros F N Nr Nh Nm St Ns L M. apply meets_start in M; [|assumption|assumption]. pose proof (first_of_steps _ _ _ St Ns) as Fs. set (d := List.hd [] steps) in *. clearbody d.
  destruct rel as [|e rel]; [congruence|]. cbn [List.hd] in *. cbn [simple_meets] in M. destruct M as (_ & _ & M & _).
  pose proof (last_record_in _ _ _ L) as Ir.
  assert (Ab : forall a, a <> [] -> prefix a (fld ++ d :: e :: rel) -> a <> fld ++ d :: e :: rel -> is_folder_path ops a) by (apply (record_above ops _ _ Ir)).
  assert (Fd : rel <> [] -> is_folder_path ops (fld ++ [d; e])).
  { intros Q. apply Ab; [destruct fld; discriminate|exists rel; rewrite <- app_assoc; reflexivity|]. intros E. apply app_inv_head in E. injection E as E. congruence. }
  assert (Ex : exists_path ops (fld ++ [d; e])). { destruct rel as [|x rel]; [right; eexists; exact Ir|left; apply Fd; discriminate]. }
  specialize (M Nh Nm d Fs Ex). destruct M as (M1 & M2). destruct rel as [|x rel].
  - exact (M2 _ _ _ _ L).
  - assert (Q : is_folder_path ops (fld ++ [d; e])) by (apply Fd; discriminate). specialize (M1 Q). rewrite (meets_var ops o (x :: rel) (fld ++ [d; e]) (fld ++ [e]) true t size fi pos); [rewrite <- app_assoc; reflexivity|discriminate| |rewrite <- app_assoc; exact L|exact M1].
    intros a Na (c & Ec) Ne. rewrite <- app_assoc. apply Ab; [destruct fld; discriminate|exists c; rewrite <- app_assoc; cbn [app]; rewrite Ec; reflexivity|].
    intros E. apply app_inv_head in E. injection E as E. congruence.
Qed.
Lemma resolve_folder ops p o : folder ops p -> simple_path_meets ops p o -> o = Some (p, 255%Z, false).
Proof.
  intros F M. destruct p as [|x p]; [exact M|]. destruct F as [F|F]; [discriminate|]. rewrite <- (app_nil_r (x :: p)) in M. apply meets_start in M; [exact M|exact F|discriminate].
Qed.

(** ** Rows *)
Lemma rows_of_concat w rows : Forall (fun r => length r = w) rows -> map (row (concat rows) w) (seq 0 (length rows)) = rows.
Proof.
  intros F. apply nth_ext with (d := []) (d' := []); [rewrite map_length, seq_length; reflexivity|]. rewrite map_length, seq_length. intros k L.
  rewrite nth_indep with (d' := row (concat rows) w 0) by (rewrite map_length, seq_length; exact L). rewrite map_nth, seq_nth by exact L. cbn [Nat.add]. unfold row. revert k L. induction F as [|r rows Fr F IH]; intros k L; [cbn in L; lia|]. destruct k as [|k].
  - cbn [Nat.mul skipn concat nth]. rewrite firstn_app, Fr, Nat.sub_diag, firstn_O, app_nil_r, <- Fr. apply firstn_all.
  - cbn [concat nth]. replace (S k * w) with (length r + k * w) by (rewrite Fr; lia). rewrite skipn_app, skipn_all2 by lia. cbn [app]. replace (length r + k * w - length r) with (k * w) by lia. apply IH. cbn in L. lia.
Qed.

(** ** Sorting *)
Lemma insert_perm n l : Permutation (insert_name n l) (n :: l).
Proof. induction l as [|m l IH]; cbn [insert_name]; [reflexivity|]. destruct (strcmp m n <? 0)%Z; [|reflexivity]. rewrite IH. apply perm_swap. Qed.
Lemma sort_perm l : Permutation (sort_names l) l.
Proof. induction l as [|n l IH]; [reflexivity|]. unfold sort_names. cbn [fold_right]. rewrite insert_perm. constructor. exact IH. Qed.
Lemma insert_asc n l : ascending l -> ascending (insert_name n l).
Proof.
  unfold ascending. induction 1 as [|m l S IH F]; cbn [insert_name]; [repeat constructor|].
  destruct (Z.ltb_spec (strcmp m n) 0) as [Q|Q].
  - constructor; [exact IH|]. apply Forall_forall. intros x Ix. apply (Permutation_in _ (insert_perm n l)) in Ix. destruct Ix as [<- |Ix]; [right; apply strcmp_lt_bytes; exact Q|]. rewrite Forall_forall in F. apply F. exact Ix.
  - assert (Le : bytes_le n m). { apply strcmp_le_bytes. rewrite strcmp_antisym. lia. }
    constructor; [constructor; assumption|]. constructor; [exact Le|]. eapply Forall_impl; [|exact F]. cbn. intros a La. destruct Le as [->|Le]; [exact La|]. destruct La as [->|La]; right; [exact Le|eapply bytes_lt_trans; eassumption].
Qed.
Lemma sort_asc l : ascending (sort_names l).
Proof. induction l as [|n l IH]; [constructor|]. apply insert_asc. exact IH. Qed.
