(** * Proofs about time steps *)
From Coq Require Import Sorting.Sorted.
From Verif Require Import CBase CBaseFacts SearchModel SearchSpec SearchProofs PathModel PathSpec PathProofs
  KeyTableModel KeyTableProofs BinDirModel BinDirSpec BinDirProofs BinModel BinSpec BinProofs TimedModel TimedSpec.

(** ** names *)
Lemma is_digit_spec c : is_digit c = true <-> (48 <= c <= 57)%Z.
Proof. unfold is_digit. lia. Qed.

Definition d_nameb (n : list Z) : bool := match n with c :: t => (c =? 100)%Z && negb (length t =? 0) && forallb is_digit t | [] => false end.
Lemma d_nameb_spec n : d_nameb n = true <-> d_name n.
Proof.
  destruct n as [|c t]; cbn [d_nameb].
  - split; [discriminate|]. intros (t & E & _). discriminate.
  - rewrite !andb_true_iff, negb_true_iff, Nat.eqb_neq, Z.eqb_eq, forallb_forall. split.
    + intros ((-> & L) & F). exists t. split; [reflexivity|]. split; [destruct t; [cbn in L; lia|discriminate]|]. apply Forall_forall. intros x I. apply is_digit_spec. auto.
    + intros (t' & E & N & F). injection E as -> ->. rewrite Forall_forall in F. split; [split; [reflexivity|destruct t'; cbn; [congruence|lia]]|]. intros x I. apply is_digit_spec. auto.
Qed.

Lemma is_d_string_spec n : is_cstr n -> is_d_string n = OK (d_nameb n).
Proof.
  intros Hc. unfold is_d_string. destruct n as [|c t]; [reflexivity|].
  change (cget (c :: t) 0) with (OK c). cbn [bind d_nameb]. destruct (c =? 100)%Z eqn:E; cbn [negb andb]; [|reflexivity].
  rewrite scan_span by (try reflexivity; cbn; lia). cbn [skipn bind].
  pose proof (span_app is_digit t) as A. pose proof (span_fst is_digit t) as F. pose proof (span_snd is_digit t) as G.
  set (a := fst (span is_digit t)) in *. set (b := snd (span is_digit t)) in *.
  change (1 + length a) with (length (c :: a)).
  destruct b as [|x b].
  - rewrite app_nil_r in A. rewrite <- A. rewrite cget_end. cbn [bind]. rewrite F, andb_true_r. cbn. reflexivity.
  - rewrite <- A. change (c :: a ++ x :: b) with ((c :: a) ++ x :: b). rewrite cget_app_at. cbn [bind].
    assert (x <> 0%Z). { unfold is_cstr in Hc. rewrite Forall_forall in Hc. specialize (Hc x). rewrite <- A in Hc. assert (0 < x < 256)%Z; [|lia]. apply Hc. right. apply in_or_app. right. left. reflexivity. }
    unfold NUL. destruct (Z.eqb_spec x 0); [contradiction|]. f_equal. rewrite forallb_app. cbn [forallb]. rewrite G. cbn. rewrite !andb_false_r. reflexivity.
Qed.

Lemma same_chars_spec m : forall pre n, is_cstr n -> Forall (fun b => b <> 0%Z) m ->
  same_chars (m ++ [NUL]) (pre ++ n) (length pre) = OK (name_eqb n m).
Proof.
  induction m as [|x m IH]; intros pre n Hc Hm; cbn [app same_chars].
  - replace (length pre) with (length pre + 0) by lia. rewrite cget_app_r. destruct n as [|y n].
    { reflexivity. }
    change (cget (y :: n) 0) with (OK y). cbn [bind]. inversion Hc; subst. unfold NUL. destruct (Z.eqb_spec y 0); [lia|]. reflexivity.
  - replace (cget (pre ++ n) (length pre)) with (cget n 0) by (rewrite <- (cget_app_r pre n 0); f_equal; lia).
    inversion Hm; subst. destruct n as [|y n].
    + change (cget [] 0) with (OK 0%Z). cbn [bind]. destruct (Z.eqb_spec 0 x); [congruence|]. reflexivity.
    + change (cget (y :: n) 0) with (OK y). cbn [bind]. destruct (Z.eqb_spec y x); cbn [negb].
      * subst y. replace (pre ++ x :: n) with ((pre ++ [x]) ++ n) by (rewrite <- app_assoc; reflexivity).
        replace (length pre + 1) with (length (pre ++ [x])) by (rewrite app_length; reflexivity).
        inversion Hc; subst. rewrite IH by assumption. f_equal.
        destruct (name_eqb n m) eqn:E; symmetry; [apply name_eqb_eq in E; apply name_eqb_eq; congruence|apply name_eqb_neq in E; apply name_eqb_neq; congruence].
      * symmetry. f_equal. apply name_eqb_neq. congruence.
Qed.
Lemma is_metadata_spec n : is_cstr n -> is_metadata_string n = OK (name_eqb n (bs "metadata")).
Proof. intros Hc. apply (same_chars_spec (bs "metadata") [] n Hc). repeat constructor; discriminate. Qed.

(** ** first and last time step *)
Lemma ascii_c n : ascii_str n -> is_cstr n. Proof. apply ascii_is_cstr. Qed.

Definition isd (e : entry) : bool := d_nameb (ename e).
Lemma isd_spec e : ascii_str (ename e) -> is_d_string (ename e) = OK (isd e).
Proof. intros H. apply is_d_string_spec, ascii_c, H. Qed.

Lemma first_d_skip : forall a cs i, Forall ascii_str (map ename a) -> (forall e, In e a -> isd e = false) -> first_d (a ++ cs) i = first_d cs (i + length a).
Proof.
  induction a as [|e a IH]; intros cs i F H; cbn [app first_d length]; [f_equal; lia|].
  inversion F; subst. rewrite isd_spec by assumption. cbn [bind]. rewrite (H e) by (left; reflexivity).
  rewrite IH; [f_equal; lia|assumption|]. intros x I. apply H. right. exact I.
Qed.
Lemma first_d_hit d cs i : ascii_str (ename d) -> isd d = true -> first_d (d :: cs) i = OK i.
Proof. intros A H. cbn [first_d]. rewrite isd_spec by assumption. cbn [bind]. rewrite H. reflexivity. Qed.

Lemma last_d_skip : forall b pre, Forall ascii_str (map ename b) -> (forall e, In e b -> isd e = false) -> pre <> [] ->
  last_d (pre ++ b) (length (pre ++ b) - 1) = last_d (pre ++ b) (length pre - 1).
Proof.
  intros b pre F H N. assert (L : 0 < length pre) by (destruct pre; [congruence|cbn; lia]).
  assert (K : forall k, k <= length b -> last_d (pre ++ b) (length pre + k - 1) = last_d (pre ++ b) (length pre - 1)).
  { induction k as [|k IH]; intros Hk; [f_equal; lia|]. rewrite <- IH by lia.
    replace (length pre + S k - 1) with (S (length pre + k - 1)) by lia. cbn [last_d].
    destruct (nth_error b k) as [e|] eqn:E; [|apply nth_error_None in E; lia].
    unfold aget. rewrite nth_error_app2 by lia. replace (S (length pre + k - 1) - length pre) with k by lia. rewrite E. cbn [bind].
    apply nth_error_In in E. rewrite isd_spec; [cbn [bind]; rewrite (H e E); reflexivity|].
    rewrite Forall_forall in F. apply F. apply in_map. exact E. }
  rewrite app_length. rewrite K by lia. reflexivity.
Qed.
Lemma last_d_hit pre d b : ascii_str (ename d) -> isd d = true -> last_d (pre ++ d :: b) (length pre) = OK (length pre).
Proof.
  intros A H. assert (E : aget (pre ++ d :: b) (length pre) = OK d) by (apply aget_OK; rewrite nth_error_app2, Nat.sub_diag by lia; reflexivity).
  destruct (length pre); cbn [last_d]; rewrite E; cbn [bind]; rewrite isd_spec by assumption; cbn [bind]; rewrite H; reflexivity.
Qed.

Lemma first_d_entry_skip : forall a cs, Forall ascii_str (map ename a) -> (forall e, In e a -> isd e = false) -> first_d_entry (a ++ cs) = first_d_entry cs.
Proof.
  induction a as [|e a IH]; intros cs F H; cbn [app first_d_entry]; [reflexivity|].
  inversion F; subst. rewrite isd_spec by assumption. cbn [bind]. rewrite (H e) by (left; reflexivity). apply IH; [assumption|]. intros x I. apply H. right. exact I.
Qed.

(** ** listings whose d-entries are consecutive *)
Definition split_d (cs a ds b : list entry) : Prop :=
  cs = a ++ ds ++ b /\ (forall e, In e a -> isd e = false) /\ (forall e, In e ds -> isd e = true) /\ (forall e, In e b -> isd e = false).

Lemma span_d a ds b cs : split_d cs a ds b -> Forall ascii_str (map ename cs) ->
  match ds with
  | [] => first_d cs 0 = OK (length cs) /\ first_d_entry cs = OK None
  | d :: _ => first_d cs 0 = OK (length a) /\ last_d cs (length cs - 1) = OK (length a + length ds - 1) /\ first_d_entry cs = OK (Some d)
  end.
Proof.
  intros (-> & Ha & Hd & Hb) F. rewrite !map_app in F. apply Forall_app in F as (Fa & F). apply Forall_app in F as (Fd & Fb).
  destruct ds as [|d ds].
  - cbn [app]. assert (Fab : Forall ascii_str (map ename (a ++ b))) by (rewrite map_app; apply Forall_app; auto).
    assert (Hab : forall e, In e (a ++ b) -> isd e = false) by (intros e I; apply in_app_or in I as [I|I]; auto).
    pose proof (first_d_skip (a ++ b) [] 0 Fab Hab) as E. pose proof (first_d_entry_skip (a ++ b) [] Fab Hab) as E2. rewrite app_nil_r in E, E2. rewrite E, E2. split; reflexivity.
  - inversion Fd as [|? ? Ad Fd']; subst. pose proof (Hd d (or_introl eq_refl)) as Id.
    split; [|split].
    + rewrite first_d_skip by assumption. apply first_d_hit; assumption.
    + replace (a ++ (d :: ds) ++ b) with ((a ++ d :: ds) ++ b) by (rewrite <- app_assoc; reflexivity).
      rewrite last_d_skip by (try assumption; destruct a; discriminate).
      destruct (exists_last (l := d :: ds)) as (ds' & z & E); [discriminate|].
      rewrite E in *. rewrite <- !app_assoc. cbn [app]. rewrite !app_length. cbn [length].
      replace (length a + (length ds' + 1) - 1) with (length (a ++ ds')) by (rewrite app_length; lia).
      rewrite app_assoc. apply last_d_hit; [|apply Hd; apply in_or_app; right; left; reflexivity].
      rewrite Forall_forall in Fd. apply Fd. apply in_map. apply in_or_app. right. left. reflexivity.
    + rewrite first_d_entry_skip by assumption. cbn [app first_d_entry]. rewrite isd_spec by assumption. cbn [bind]. rewrite Id. reflexivity.
Qed.

(** in a sorted listing in which only time steps start with 'd' *)
Lemma bytes_lt_head x a y b : bytes_lt (x :: a) (y :: b) -> (x <= y)%Z.
Proof.
  intros [(c & t & E)|(p & u & s & v & t & E1 & E2 & L)].
  - injection E as -> _. lia.
  - destruct p as [|z p]; cbn [app] in *; injection E1 as -> _; injection E2 as -> _; lia.
Qed.
Lemma bytes_lt_not_nil a : ~ bytes_lt a [].
Proof. intros [(y & t & E)|(p & x & s & y & t & _ & E & _)]; [destruct a; discriminate|destruct p; discriminate]. Qed.

Definition dh (n : list Z) : bool := match n with c :: _ => (c =? 100)%Z | [] => false end.
Lemma contiguous : forall cs, names_strict (map ename cs) -> (forall e, In e cs -> dh (ename e) = true -> isd e = true) ->
  exists a ds b, split_d cs a ds b.
Proof.
  assert (D : forall e, isd e = true -> dh (ename e) = true).
  { intros e H. unfold isd, d_nameb, dh in *. destruct (ename e); [discriminate|]. rewrite !andb_true_iff in H. tauto. }
  (* behind a d-entry *)
  assert (B : forall cs m, names_strict (m :: map ename cs) -> dh m = true -> (forall e, In e cs -> dh (ename e) = true -> isd e = true) ->
    exists ds b, cs = ds ++ b /\ (forall e, In e ds -> isd e = true) /\ (forall e, In e b -> isd e = false)).
  { induction cs as [|e cs IH]; intros m S Dm H; [exists [], []; split; [reflexivity|split; intros ? []]|].
    inversion S as [|? ? S1 F1]; subst. destruct (dh (ename e)) eqn:De.
    - destruct (IH (ename e)) as (ds & b & -> & A1 & A2); [assumption|assumption|intros; apply H; [right; assumption|assumption]|].
      exists (e :: ds), b. split; [reflexivity|]. split; [|assumption]. intros x [<-|I]; [apply H; [left; reflexivity|assumption]|auto].
    - exists [], (e :: cs). split; [reflexivity|]. split; [intros ? []|].
      assert (G : forall n, bytes_lt m n -> n = ename e \/ bytes_lt (ename e) n -> dh n = false).
      { destruct m as [|c m]; [discriminate|]. cbn in Dm. apply Z.eqb_eq in Dm. subst c.
        assert (E1 : bytes_lt (100%Z :: m) (ename e)) by (inversion F1; assumption).
        destruct (ename e) as [|y t] eqn:En; [exfalso; eapply bytes_lt_not_nil; eassumption|].
        pose proof (bytes_lt_head _ _ _ _ E1). cbn in De. apply Z.eqb_neq in De.
        intros n Ln [->|L]; [cbn; lia|]. destruct n as [|z n]; [reflexivity|]. apply bytes_lt_head in L. cbn. lia. }
      intros x I. destruct (isd x) eqn:Ix; [|reflexivity]. apply D in Ix. rewrite <- Ix. apply G.
      + rewrite Forall_forall in F1. apply F1. apply (in_map ename (e :: cs)). exact I.
      + destruct I as [<-|I]; [left; reflexivity|right]. inversion S1 as [|? ? _ F2]; subst. rewrite Forall_forall in F2. apply F2. apply in_map. exact I. }
  induction cs as [|e cs IH]; intros S H; [exists [], [], []; split; [reflexivity|repeat split; intros ? []]|].
  destruct (dh (ename e)) eqn:De.
  - destruct (B cs (ename e) S De) as (ds & b & -> & A1 & A2); [intros; apply H; [right; assumption|assumption]|].
    exists [], (e :: ds), b. split; [reflexivity|]. split; [intros ? []|]. split; [|assumption].
    intros x [<-|I]; [apply H; [left; reflexivity|assumption]|auto].
  - inversion S; subst. destruct IH as (a & ds & b & -> & A1 & A2 & A3); [assumption|intros; apply H; [right; assumption|assumption]|].
    exists (e :: a), ds, b. split; [reflexivity|]. split; [|auto]. intros x [<-|I]; [|auto].
    destruct (isd e) eqn:Ie; [apply D in Ie; congruence|reflexivity].
Qed.

(** ** the children of a folder *)
Lemma children_exists ops dir p cs : denotes ops dir -> noclash ops -> children_at dir p = Some cs ->
  forall n, In n (map ename cs) <-> exists_path ops (p ++ [n]).
Proof.
  intros D Nc E n. pose proof (proj2 D (p ++ [n])) as Q. rewrite (nd_app dir p cs [n] E) in Q. rewrite nd_cons in Q.
  destruct (find_name n cs) as [e|] eqn:Fn.
  - pose proof (find_name_some _ _ _ Fn) as (I & En). split; [|intros _; apply in_map_iff; exists e; auto].
    intros _. cbn [node_of] in Q. destruct e as [m vt sz fi pos|m sub]; cbn [kind] in Q.
    + right. exists (vt, sz, fi, pos). apply last_record_in. exact Q.
    + left. destruct Q as [Q|Q]; [destruct p; discriminate|exact Q].
  - apply find_name_none in Fn. split; [contradiction|]. intros [H|(i & H)]; exfalso.
    + exact (proj2 Q H).
    + destruct Q as (Q & _). exact (Q i H).
Qed.

(** ** sorted lists *)
Lemma SS_app_r {A} (R : A -> A -> Prop) a b : StronglySorted R (a ++ b) -> StronglySorted R b.
Proof. induction a as [|x a IH]; cbn; [auto|]. intros H. inversion H; auto. Qed.
Lemma SS_app_l {A} (R : A -> A -> Prop) a b : StronglySorted R (a ++ b) -> StronglySorted R a.
Proof.
  induction a as [|x a IH]; cbn; [constructor|]. intros H. inversion H as [|? ? H1 H2]; subst. constructor; [auto|].
  apply Forall_app in H2. tauto.
Qed.

(** ** the number of time steps *)
Lemma folder_children ops dir p : denotes ops dir -> noclash ops -> p = [] \/ is_folder_path ops p -> exists cs, children_at dir p = Some cs.
Proof.
  intros D Nc [->|F]; [exists dir; reflexivity|]. apply nd_children. exact (denotes_folder ops dir D Nc p F).
Qed.

Lemma strict_unique (l : list (list Z)) : forall m, names_strict l -> names_strict m -> (forall n, In n l <-> In n m) -> l = m.
Proof.
  induction l as [|x l IH]; intros [|y m] Sl Sm H.
  - reflexivity.
  - exfalso. apply (H y). left. reflexivity.
  - exfalso. apply (H x). left. reflexivity.
  - inversion Sl as [|? ? Sl1 Fl]; subst. inversion Sm as [|? ? Sm1 Fm]; subst. rewrite Forall_forall in Fl, Fm.
    assert (x = y) as ->.
    { destruct (proj1 (H x) (or_introl eq_refl)) as [->|Ix]; [reflexivity|].
      destruct (proj2 (H y) (or_introl eq_refl)) as [->|Iy]; [reflexivity|].
      exfalso. apply (bytes_lt_irrefl x). eapply bytes_lt_trans; [apply Fl; exact Iy|apply Fm; exact Ix]. }
    f_equal. apply IH; [assumption|assumption|]. intros n. split; intros I.
    + destruct (proj1 (H n) (or_intror I)) as [->|?]; [|assumption]. exfalso. apply (bytes_lt_irrefl n). auto.
    + destruct (proj2 (H n) (or_intror I)) as [->|?]; [|assumption]. exfalso. apply (bytes_lt_irrefl n). auto.
Qed.

Lemma tidy_split ops dir p cs : denotes ops dir -> noclash ops -> children_at dir p = Some cs -> tidy ops p ->
  exists a ds b, split_d cs a ds b /\ good cs /\ steps_of ops p (map ename ds) /\ forall steps, steps_of ops p steps -> map ename ds = steps.
Proof.
  intros D Nc E T. pose proof (proj1 D p cs E) as G. pose proof (children_exists ops dir p cs D Nc E) as X.
  destruct (contiguous cs) as (a & ds & b & Sp).
  - apply G.
  - intros e I De. unfold isd. apply d_nameb_spec. destruct (ename e) as [|c t] eqn:En; [discriminate|]. cbn in De. apply Z.eqb_eq in De. subst c.
    apply T, X. apply in_map_iff. exists e. auto.
  - exists a, ds, b. split; [exact Sp|]. split; [exact G|].
    assert (St : steps_of ops p (map ename ds)).
    { split.
      - destruct Sp as (-> & _). destruct G as (G & _). rewrite !map_app in G. apply SS_app_r in G. apply SS_app_l in G. exact G.
      - intros n. rewrite <- X. destruct Sp as (-> & Ha & Hd & Hb). split.
        + intros I. apply in_map_iff in I as (e & <- & I). split; [apply d_nameb_spec; apply (Hd e I)|]. rewrite !map_app. apply in_or_app. right. apply in_or_app. left. apply in_map. exact I.
        + intros (Dn & I). apply in_map_iff in I as (e & <- & I). apply d_nameb_spec in Dn. fold (isd e) in Dn. apply in_map.
          apply in_app_or in I as [I|I]; [rewrite (Ha e I) in Dn; discriminate|]. apply in_app_or in I as [I|I]; [exact I|rewrite (Hb e I) in Dn; discriminate]. }
    split; [exact St|]. intros steps (Ss & Hs). apply strict_unique; [apply St|exact Ss|]. intros n. rewrite (proj2 St n), Hs. reflexivity.
Qed.

Lemma num_timesteps_spec ops b path : denotes ops (b_dir b) -> noclash ops -> ascii_str path -> absolute path ->
  elements path = [] \/ is_folder_path ops (elements path) -> tidy ops (elements path) ->
  (forall n i, ~ In (elements path ++ [n], i) (records [] ops)) ->
  exists steps, steps_of ops (elements path) steps /\ num_timesteps b path = OK (Some (length steps)).
Proof.
  intros D Nc As Ab F T Nv. destruct (folder_children ops _ _ D Nc F) as (cs & E).
  destruct (tidy_split ops _ _ cs D Nc E T) as (a & ds & z & Sp & G & St & _). exists (map ename ds). split; [exact St|]. rewrite map_length.
  destruct (get_children_spec (b_dir b) path (proj1 D) As Ab) as (r & Er & Q). rewrite E in Q. subst r.
  unfold get_children in Er. unfold num_timesteps. destruct (path_view_new path) as [pv| |]; cbn [bind] in *; try discriminate. rewrite Er. cbn [bind].
  pose proof (span_d a ds z cs Sp (proj2 G)) as Q.
  destruct cs as [|e cs].
  { destruct Sp as (Q' & _). symmetry in Q'. apply app_eq_nil in Q' as (_ & Q'). apply app_eq_nil in Q' as (-> & _). reflexivity. }
  destruct e as [n vt sz fi pos|n sub].
  { exfalso. pose proof (proj2 D (elements path ++ [n])) as R. rewrite (nd_app _ _ _ [n] E), nd_cons in R. cbn [find_name find ename] in R.
    rewrite name_eqb_refl in R. cbn [node_of kind] in R. apply last_record_in in R. exact (Nv _ _ R). }
  destruct ds as [|d ds].
  - destruct Q as (-> & _). cbn [bind]. rewrite Nat.eqb_refl. reflexivity.
  - destruct Q as (Q1 & Q2 & _). rewrite Q1. cbn [bind].
    assert (L : length (Folder n sub :: cs) = length a + length (d :: ds) + length z) by (destruct Sp as (-> & _); rewrite !app_length; lia).
    cbn [length] in L, Q2 |- *. destruct (Nat.eqb_spec (length a) (S (length cs))); [lia|]. rewrite Q2. cbn [bind]. do 2 f_equal. lia.
Qed.

(** ** paths put together from elements *)
Definition path_of (els : list (list Z)) : list Z := concat (map (cons SEP) els).
Lemma split_sep_noslash a s : ~ In SEP a -> split_sep (a ++ SEP :: s) = a :: split_sep s.
Proof.
  induction a as [|x a IH]; intros H; cbn [app split_sep]; [reflexivity|].
  rewrite IH by (intros I; apply H; right; exact I). destruct (Z.eqb_spec x 47) as [->|]; [exfalso; apply H; left; reflexivity|]. reflexivity.
Qed.
Lemma split_sep_end a : ~ In SEP a -> split_sep a = [a].
Proof.
  induction a as [|x a IH]; intros H; cbn [split_sep]; [reflexivity|].
  rewrite IH by (intros I; apply H; right; exact I). destruct (Z.eqb_spec x 47) as [->|]; [exfalso; apply H; left; reflexivity|]. reflexivity.
Qed.
Lemma elements_path_of els : Forall proper els -> elements (path_of els) = els.
Proof.
  intros F. destruct els as [|n els]; [reflexivity|]. unfold path_of. cbn [map concat app].
  assert (K : forall els n, Forall proper (n :: els) -> elements (n ++ concat (map (cons SEP) els)) = n :: els).
  { clear. induction els as [|m els IH]; intros n F; inversion F as [|? ? (N & S) F1]; subst.
    - cbn. rewrite app_nil_r. unfold elements. rewrite split_sep_end by assumption. cbn. destruct n; [congruence|reflexivity].
    - specialize (IH m F1). unfold elements in *. cbn [map concat app]. rewrite split_sep_noslash by assumption. cbn [filter]. rewrite IH. destruct n; [congruence|reflexivity]. }
  unfold elements. cbn [split_sep]. change (SEP =? 47)%Z with true. cbn iota. cbn [filter nonempty]. apply K. exact F.
Qed.
Lemma path_of_snoc els n : path_of (els ++ [n]) = path_of els ++ SEP :: n.
Proof. unfold path_of. rewrite map_app, concat_app. cbn. rewrite app_nil_r. reflexivity. Qed.

Lemma elements_proper s : Forall proper (elements s).
Proof.
  apply Forall_forall. intros e I. unfold elements in I. apply filter_In in I as (I & N). split; [destruct e; [discriminate|congruence]|].
  clear N. revert e I. induction s as [|x s IH]; intros e I; cbn [split_sep] in I.
  - destruct I as [<-|[]]. intros [].
  - destruct (x =? 47)%Z eqn:E.
    + destruct I as [<-|I]; [intros []|auto].
    + destruct (split_sep s) as [|h t]; [destruct I as [<-|[]]; intros [Q|[]]; unfold SEP in *; lia|].
      destruct I as [<-|I]; [|apply IH; right; exact I]. intros [Q|Q]; [unfold SEP in *; lia|]. exact (IH h (or_introl eq_refl) Q).
Qed.

Lemma records_name ops : forall cur p i, In (p, i) (records cur ops) -> exists c n, p = c ++ [n] /\ In (OpFile n i) ops /\ (c = cur \/ In c (folder_paths ops)).
Proof.
  induction ops as [|[q|n j] ops IH]; intros cur p i I; cbn [records] in I; [contradiction| |].
  - destruct (IH _ _ _ I) as (c & n & -> & I1 & I2). exists c, n. split; [reflexivity|]. split; [right; exact I1|]. right. cbn. destruct I2 as [->|I2]; auto.
  - destruct I as [Q|I].
    + injection Q as <- <-. exists cur, n. split; [reflexivity|]. split; [left; reflexivity|auto].
    + destruct (IH _ _ _ I) as (c & m & -> & I1 & I2). exists c, m. split; [reflexivity|]. split; [right; exact I1|]. destruct I2; auto.
Qed.
Lemma folder_path_proper ops p : is_folder_path ops p -> Forall proper p.
Proof.
  intros (q & I & (r & E)). apply folder_paths_in in I as (s & _ & ->). pose proof (elements_proper s) as F. rewrite E in F. apply Forall_app in F. tauto.
Qed.
Lemma exists_proper ops p : proper_names ops -> exists_path ops p -> Forall proper p.
Proof.
  intros Hn [F|(i & I)]; [eapply folder_path_proper; eassumption|].
  destruct (records_name _ _ _ _ I) as (c & n & -> & I1 & I2). apply Forall_app. split; [|constructor; [eapply Hn; eassumption|constructor]].
  destruct I2 as [->|I2]; [constructor|]. apply (folder_path_proper ops). exists c. split; [exact I2|exists []; symmetry; apply app_nil_r].
Qed.

(** ** simple paths *)
Lemma find_folder ops dir p cs n m sub : denotes ops dir -> noclash ops -> children_at dir p = Some cs -> find_name n cs = Some (Folder m sub) ->
  is_folder_path ops (p ++ [n]) /\ children_at dir (p ++ [n]) = Some sub /\ m = n.
Proof.
  intros D Nc E F. pose proof (proj2 D (p ++ [n])) as Q. rewrite (nd_app dir p cs [n] E), nd_cons, F in Q. cbn [node_of kind] in Q.
  split; [destruct Q as [Q|Q]; [destruct p; discriminate|exact Q]|]. split; [|apply find_name_some in F as (_ & F); exact F].
  clear D Q. revert dir E. induction p as [|x p IH]; intros dir E; cbn [children_at app] in *.
  - injection E as ->. rewrite F. reflexivity.
  - destruct (find_name x dir) as [[|y s]|]; try discriminate. apply IH. exact E.
Qed.
Lemma find_file ops dir p cs n m vt sz fi pos : denotes ops dir -> children_at dir p = Some cs -> find_name n cs = Some (File m vt sz fi pos) ->
  last_record (records [] ops) (p ++ [n]) (Some (vt, sz, fi, pos)) /\ m = n.
Proof.
  intros D E F. pose proof (proj2 D (p ++ [n])) as Q. rewrite (nd_app dir p cs [n] E), nd_cons, F in Q. cbn [node_of kind] in Q.
  split; [exact Q|]. apply find_name_some in F as (_ & F). exact F.
Qed.
Lemma find_none ops dir p cs n : denotes ops dir -> noclash ops -> children_at dir p = Some cs -> find_name n cs = None <-> ~ exists_path ops (p ++ [n]).
Proof. intros D Nc E. rewrite <- (children_exists ops dir p cs D Nc E n). apply find_name_none. Qed.

Lemma last_metadata_spec cs : good cs -> cs <> [] -> last_metadata cs (length cs - 1) = OK (find_name (bs "metadata") cs).
Proof.
  intros G N.
  assert (K : forall i, i < length cs -> (forall k e, i < k -> nth_error cs k = Some e -> ename e <> bs "metadata") ->
    last_metadata cs i = OK (find_name (bs "metadata") cs)).
  { induction i as [|i IH]; intros L H; cbn [last_metadata].
    - destruct (nth_error cs 0) as [e|] eqn:E; [|apply nth_error_None in E; lia]. unfold aget. rewrite E. cbn [bind].
      rewrite is_metadata_spec; [|apply ascii_c; destruct G as (_ & G); rewrite Forall_forall in G; apply G, in_map; eapply nth_error_In; eassumption].
      cbn [bind]. destruct (name_eqb (ename e) (bs "metadata")) eqn:Em.
      + apply name_eqb_eq in Em. rewrite (good_nth cs _ e 0 G E Em). reflexivity.
      + symmetry. f_equal. apply find_name_none. intros I. apply in_map_iff in I as (x & Ex & I). apply In_nth_error in I as (k & I).
        destruct k as [|k]; [rewrite E in I; injection I as ->; apply name_eqb_neq in Em; contradiction|]. apply (H (S k) x); [lia|assumption|assumption].
    - destruct (nth_error cs (S i)) as [e|] eqn:E; [|apply nth_error_None in E; lia]. unfold aget. rewrite E. cbn [bind].
      rewrite is_metadata_spec; [|apply ascii_c; destruct G as (_ & G); rewrite Forall_forall in G; apply G, in_map; eapply nth_error_In; eassumption].
      cbn [bind]. destruct (name_eqb (ename e) (bs "metadata")) eqn:Em.
      + apply name_eqb_eq in Em. rewrite (good_nth cs _ e _ G E Em). reflexivity.
      + apply IH; [lia|]. intros k x Lk Ex Q. destruct (Nat.eq_dec k (S i)) as [->|]; [rewrite E in Ex; injection Ex as ->; apply name_eqb_neq in Em; contradiction|].
        apply (H k x); [lia|assumption|assumption]. }
  apply K; [destruct cs; [congruence|cbn; lia]|]. intros k e L E. apply nth_error_Some_lt in E. lia.
Qed.

Lemma first_d_entry_spec cs : good cs -> exists o, first_d_entry cs = OK o /\
  match o with
  | None => forall e, In e cs -> isd e = false
  | Some d => In d cs /\ isd d = true /\ forall e, In e cs -> isd e = true -> ename e = ename d \/ bytes_lt (ename d) (ename e)
  end.
Proof.
  induction cs as [|e cs IH]; intros (S & F); cbn [first_d_entry]; [exists None; split; [reflexivity|intros ? []]|].
  inversion S as [|? ? S1 F1]; subst. inversion F as [|? ? Fa Fb]; subst. rewrite isd_spec by assumption. cbn [bind]. destruct (isd e) eqn:Ie.
  - exists (Some e). split; [reflexivity|]. split; [left; reflexivity|]. split; [assumption|]. intros x [<-|I] _; [auto|right].
    rewrite Forall_forall in F1. apply F1, in_map, I.
  - destruct (IH (conj S1 Fb)) as ([d|] & E & H); [exists (Some d)|exists None]; (split; [exact E|]).
    + destruct H as (I & Id & H). split; [right; exact I|]. split; [exact Id|]. intros x [<-|Ix]; [congruence|auto].
    + intros x [<-|I]; auto.
Qed.

Lemma search_opt_spec n sub pv x els : good sub -> shows pv (x :: els) -> ascii_str (pv_string pv) ->
  search_opt (Some (Folder n sub)) pv = OK (find_name x sub).
Proof.
  intros G Sh As. unfold search_opt. cbn [num_children search_in child]. destruct sub as [|e sub]; [reflexivity|].
  destruct (Z.eqb_spec (Z.of_nat (length (e :: sub))) 0) as [Q|_]; [cbn in Q; lia|].
  pose proof (search_spec (e :: sub) pv x els G ltac:(discriminate) Sh As) as Q. destruct (find_name x (e :: sub)) as [c|].
  - destruct Q as (i & -> & Q). cbn [bind]. unfold aget. rewrite Q. reflexivity.
  - rewrite Q. reflexivity.
Qed.

Definition show_result (o : option (list (list Z) * Z * bool)) : simple_result := option_map (fun '(r, t, timed) => (path_of r, t, timed)) o.

Lemma last_record_folder ops dir p i : denotes ops dir -> noclash ops -> last_record (records [] ops) p (Some i) -> ~ is_folder_path ops p.
Proof. intros D Nc L. apply last_record_in in L. exact (Nc _ _ L). Qed.

(** the result stands for an existing path *)
Definition sound (ops : list op) (p r : list (list Z)) (timed : bool) (o : option (list (list Z) * Z * bool)) : Prop :=
  match o with
  | None => True
  | Some (r', t, tm) => exists zp zr, r' = r ++ zr /\ denotes_type ops (p ++ zp) t /\ drops zp zr /\ (tm = false -> timed = false /\ zp = zr)
  end.
Lemma drops_refl p : drops p p. Proof. induction p; constructor; auto. Qed.
Lemma drops_app a b : drops a b -> forall c d, drops c d -> drops (a ++ c) (b ++ d).
Proof. induction 1; intros c d' H'; cbn; [exact H'|constructor; auto|constructor; auto]. Qed.
Lemma sound_step ops p r timed o a b tm0 : drops a b -> (tm0 = false -> timed = false /\ a = b) -> sound ops (p ++ a) (r ++ b) tm0 o -> sound ops p r timed o.
Proof.
  intros Dr H. destruct o as [[[r' t] tm]|]; [|auto]. intros (zp & zr & -> & Dt & Dz & Ht). exists (a ++ zp), (b ++ zr).
  rewrite <- !app_assoc in *. split; [reflexivity|]. split; [exact Dt|]. split; [apply drops_app; assumption|].
  intros Q. destruct (Ht Q) as (Q1 & ->). destruct (H Q1) as (Q2 & ->). auto.
Qed.

Section Simple.
  Context (ops : list op) (dir : list entry) (D : denotes ops dir) (Nc : noclash ops) (Sp : specials_are_folders ops).

  Lemma special_not_file p cs n m vt sz fi pos : children_at dir p = Some cs -> d_name n \/ n = bs "metadata" -> find_name n cs = Some (File m vt sz fi pos) -> False.
  Proof using D Sp.
    intros E Hn F. destruct (find_file ops dir p cs n _ _ _ _ _ D E F) as (L & _). apply last_record_in in L. apply records_name in L as (c & n' & Q & I & _).
    apply app_inj_tail in Q as (_ & <-). destruct (Sp _ _ I) as (A & B). destruct Hn; auto.
  Qed.

  Lemma simple_loop_spec : forall els e fuel cs pv p r timed, children_at dir p = Some cs -> shows pv (e :: els) -> ascii_str (pv_string pv) ->
    p <> [] -> is_folder_path ops p -> length els < fuel ->
    exists o, simple_loop fuel cs (path_of r) timed pv = OK (show_result o) /\ simple_meets ops p r timed els o /\ sound ops p r timed o.
  Proof using D Nc Sp.
    induction els as [|x els IH]; intros e fuel cs pv p r timed E Sh As Np Fp L; (destruct fuel as [|fuel]; [lia|]); cbn [simple_loop].
    { pose proof (shows_advance pv e [] Sh) as A. cbn in A. rewrite A. cbn [bind negb]. exists (Some (r, 255%Z, timed)). split; [reflexivity|]. split; [reflexivity|].
      exists [], []. rewrite !app_nil_r. split; [reflexivity|]. split; [left; auto|]. split; [constructor|auto]. }
    pose proof (shows_advance pv e (x :: els) Sh) as (pv' & A & Sh' & Es & _). rewrite A. cbn [bind negb].
    assert (As' : ascii_str (pv_string pv')) by (rewrite Es; exact As).
    pose proof (proj1 D p cs E) as G.
    pose (enter := fun (c : entry) (pre : cstr) (tm : bool) =>
      match c with
      | File _ vt _ _ _ => do '(_, more) <- path_view_advance pv'; if more then OK None else OK (Some (path_of r ++ pre ++ [SEP] ++ ename c, vt, tm))
      | Folder _ sub => simple_loop fuel sub (path_of r ++ pre ++ [SEP] ++ ename c) tm pv'
      end : res simple_result).
    assert (En : forall c pre tm q m, ename c = m -> (match c with File _ vt sz fi pos => last_record (records [] ops) q (Some (vt, sz, fi, pos)) /\ ~ is_folder_path ops q
         | Folder _ sub => is_folder_path ops q /\ children_at dir q = Some sub end) ->
       q <> [] -> exists o, enter c (path_of pre) tm = OK (show_result o) /\ sound ops q (r ++ pre ++ [m]) tm o /\
         (is_folder_path ops q -> simple_meets ops q (r ++ pre ++ [m]) tm els o) /\
         (forall t size fi pos, last_record (records [] ops) q (Some (t, size, fi, pos)) -> o = match els with [] => Some (r ++ pre ++ [m], t, tm) | _ => None end)).
    { intros c pre tm q m Hm H Nq. unfold enter.
      assert (P : path_of r ++ path_of pre ++ [SEP] ++ ename c = path_of (r ++ pre ++ [m])).
      { rewrite Hm, (app_assoc r pre [m]), path_of_snoc. unfold path_of. rewrite map_app, concat_app, <- app_assoc. reflexivity. }
      destruct c as [n vt sz fi pos|n sub]; rewrite P.
      - destruct H as (H & Nf). pose proof (shows_advance pv' x els Sh') as B. destruct els as [|y els].
        + rewrite B. cbn [bind]. exists (Some (r ++ pre ++ [m], vt, tm)). split; [reflexivity|].
          split; [exists [], []; rewrite !app_nil_r; split; [reflexivity|]; split; [right; eauto|]; split; [constructor|auto]|]. split; [contradiction|].
          intros t size fi' pos' H'. pose proof (last_record_unique _ _ _ _ H H') as Q. injection Q as -> _ _ _. reflexivity.
        + destruct B as (pv2 & B & _). rewrite B. cbn [bind]. exists None. split; [reflexivity|]. split; [exact I|]. split; [contradiction|]. reflexivity.
      - destruct H as (H & Ec). destruct (IH x fuel sub pv' q (r ++ pre ++ [m]) tm Ec Sh' As' Nq H ltac:(cbn in L; lia)) as (o & Eo & Mo & So).
        exists o. split; [exact Eo|]. split; [exact So|]. split; [auto|]. intros t size fi pos Lr. exfalso. exact (last_record_folder ops dir q _ D Nc Lr H). }
    assert (Kd : forall n cs0 p0 c, children_at dir p0 = Some cs0 -> find_name n cs0 = Some c -> ename c = n /\
       match c with File _ vt sz fi pos => last_record (records [] ops) (p0 ++ [n]) (Some (vt, sz, fi, pos)) /\ ~ is_folder_path ops (p0 ++ [n])
         | Folder _ sub => is_folder_path ops (p0 ++ [n]) /\ children_at dir (p0 ++ [n]) = Some sub end).
    { intros n cs0 p0 c E0 F. split; [apply find_name_some in F; tauto|]. destruct c as [m vt sz fi pos|m sub].
      - destruct (find_file ops dir p0 cs0 n _ _ _ _ _ D E0 F) as (H & _). split; [exact H|]. exact (last_record_folder ops dir _ _ D Nc H).
      - destruct (find_folder ops dir p0 cs0 n _ _ D Nc E0 F) as (H & H2 & _). auto. }
    assert (St : forall n, In n (map ename cs) <-> exists_path ops (p ++ [n])) by (apply (children_exists ops dir p cs D Nc E)).
    destruct cs as [|c0 cs0] eqn:Ecs.
    { exists None. split; [reflexivity|]. split; [|exact I]. cbn [simple_meets].
      assert (None1 : forall n, ~ exists_path ops (p ++ [n])) by (intros n; rewrite <- St; intros []).
      assert (None2 : forall n y, ~ exists_path ops (p ++ [n; y])).
      { intros n y [(q & I & (z & Q))|(i & I)].
        - apply (None1 n). left. exists q. split; [exact I|]. exists (y :: z). rewrite Q, <- !app_assoc. reflexivity.
        - apply records_name in I as (c & m & Q & _ & I). change (p ++ [n; y]) with (p ++ [n] ++ [y]) in Q. rewrite app_assoc in Q. apply app_inj_tail in Q as (<- & _).
          destruct I as [I|I]; [destruct p; discriminate|]. apply (None1 n). left. exists (p ++ [n]). split; [exact I|exists []; symmetry; apply app_nil_r]. }
      split; [intros Q; destruct (None1 _ Q)|]. split; [intros _ Q; destruct (None2 _ _ Q)|]. split; [|auto]. intros _ _ d _ Q. destruct (None2 _ _ Q). }
    rewrite <- Ecs in *. assert (Ne : cs <> []) by (rewrite Ecs; discriminate). clear Ecs.
    pose proof (search_spec cs pv' x els G Ne Sh' As') as Se.
    cbn [simple_meets]. destruct (find_name x cs) as [c|] eqn:Fx.
    - destruct Se as (i & -> & Se). cbn [bind]. unfold aget. rewrite Se. cbn [bind].
      destruct (Kd x cs p c E Fx) as (Hm & H). destruct (En c [] timed _ x Hm H ltac:(destruct p; discriminate)) as (o & Eo & So & Go). exists o. split; [exact Eo|].
      split; [|apply (sound_step ops p r timed o [x] [x] timed); [apply drops_refl|auto|exact So]].
      assert (Here : exists_path ops (p ++ [x])) by (apply St; apply find_name_some in Fx as (I & <-); apply in_map; exact I).
      split; [intros _; exact Go|]. repeat split; contradiction.
    - rewrite Se. cbn [bind]. pose proof (proj1 (find_none ops dir p cs x D Nc E) Fx) as Nh.
      rewrite (last_metadata_spec cs G Ne). cbn [bind].
      (* children of a folder among the children *)
      assert (Sub : forall n o, (d_name n \/ n = bs "metadata") -> o = find_name n cs -> exists r2, search_opt o pv' = OK r2 /\
        match r2 with
        | Some c => exists_path ops (p ++ [n; x]) /\ ename c = x /\ match c with File _ vt sz fi pos => last_record (records [] ops) (p ++ [n; x]) (Some (vt, sz, fi, pos)) /\ ~ is_folder_path ops (p ++ [n; x])
             | Folder _ sub => is_folder_path ops (p ++ [n; x]) /\ children_at dir (p ++ [n; x]) = Some sub end
        | None => ~ exists_path ops (p ++ [n; x]) end).
      { intros n o Hn ->. destruct (find_name n cs) as [[m vt sz fi pos|m sub]|] eqn:Fn.
        - exfalso. eapply special_not_file; eassumption.
        - destruct (find_folder ops dir p cs n m sub D Nc E Fn) as (_ & Ec & _).
          rewrite (search_opt_spec m sub pv' x els (proj1 D _ _ Ec) Sh' As'). eexists. split; [reflexivity|].
          change (p ++ [n; x]) with (p ++ [n] ++ [x]). rewrite app_assoc.
          destruct (find_name x sub) as [c|] eqn:Fs.
          + destruct (Kd x sub _ c Ec Fs) as (Hm & H). split; [|split; assumption]. apply (children_exists ops dir _ sub D Nc Ec). apply find_name_some in Fs as (I & <-). apply in_map. exact I.
          + apply (find_none ops dir _ sub x D Nc Ec). exact Fs.
        - eexists. split; [reflexivity|]. cbn. pose proof (proj1 (find_none ops dir p cs n D Nc E) Fn) as Nn. intros [(q & I & (z & Q))|(i & I)].
          + apply Nn. left. exists q. split; [exact I|]. exists (x :: z). rewrite Q, <- !app_assoc. reflexivity.
          + apply records_name in I as (c & m & Q & _ & I). change (p ++ [n; x]) with (p ++ [n] ++ [x]) in Q. rewrite app_assoc in Q. apply app_inj_tail in Q as (<- & _).
            destruct I as [I|I]; [destruct p; discriminate|]. apply Nn. left. exists (p ++ [n]). split; [exact I|exists []; symmetry; apply app_nil_r]. }
      destruct (Sub (bs "metadata") _ (or_intror eq_refl) eq_refl) as (r2 & -> & H2). cbn [bind]. destruct r2 as [c|].
      + destruct H2 as (Ex & Hm & H). destruct (En c [bs "metadata"] timed _ x Hm H ltac:(destruct p; discriminate)) as (o & Eo & So & Go). cbn [app] in Go, So. exists o. split; [exact Eo|].
        split; [|apply (sound_step ops p r timed o [bs "metadata"; x] [bs "metadata"; x] timed); [apply drops_refl|auto|exact So]].
        split; [contradiction|]. split; [intros _ _; exact Go|]. repeat split; contradiction.
      + destruct (first_d_entry_spec cs G) as (d & -> & Hd). cbn [bind]. destruct d as [d|].
        * destruct Hd as (Id & Dd & Md). apply d_nameb_spec in Dd.
          assert (Fd : find_name (ename d) cs = Some d). { apply In_nth_error in Id as (k & Id). eapply good_nth; [exact G|exact Id|reflexivity]. }
          assert (Fs : first_step ops p (ename d)).
          { split; [exact Dd|]. split; [apply St, in_map, Id|]. intros d' Hd' Ed'. apply St in Ed'. apply in_map_iff in Ed' as (e' & <- & I'). apply d_nameb_spec in Hd'. apply Md; assumption. }
          assert (Un : forall d', first_step ops p d' -> d' = ename d).
          { intros d' (A1 & A2 & A3). destruct Fs as (B1 & B2 & B3). destruct (A3 _ B1 B2) as [Q|Q]; [auto|]. destruct (B3 _ A1 A2) as [Q2|Q2]; [auto|].
            exfalso. apply (bytes_lt_irrefl d'). eapply bytes_lt_trans; eassumption. }
          destruct (Sub (ename d) _ (or_introl Dd) (eq_sym Fd)) as (r3 & -> & H3). cbn [bind]. destruct r3 as [c|].
          -- destruct H3 as (Ex & Hm & H). destruct (En c [] true _ x Hm H ltac:(destruct p; discriminate)) as (o & Eo & So & Go). cbn [app] in Go, So. exists o. split; [exact Eo|].
             split; [|apply (sound_step ops p r timed o [ename d; x] [x] true); [constructor; [exact Dd|apply drops_refl]|discriminate|exact So]].
             split; [contradiction|]. split; [contradiction|]. split.
             ++ intros _ _ d' Fd' _. rewrite (Un d' Fd'). exact Go.
             ++ intros _ _ Q. destruct (Q _ Fs Ex).
          -- exists None. split; [reflexivity|]. split; [|exact I]. split; [contradiction|]. split; [contradiction|]. split; [|auto].
             intros _ _ d' Fd' Ex. rewrite (Un d' Fd') in Ex. contradiction.
        * cbn [search_opt bind]. exists None. split; [reflexivity|]. split; [|exact I]. split; [contradiction|]. split; [contradiction|]. split; [|auto].
          intros _ _ d' (A1 & A2 & _). apply St in A2. apply in_map_iff in A2 as (e' & <- & I'). apply d_nameb_spec in A1. specialize (Hd e' I'). unfold isd in Hd. congruence.
  Qed.
End Simple.

Lemma start_path s : ascii_str s -> s <> [] -> exists pv, path_view_new s = OK pv /\ pv_string pv = s /\
  path_is_abs s = OK (is_abs s) /\
  if is_abs s then
    match elements s with
    | [] => path_view_advance pv = OK (pv, false)
    | _ => exists pv', path_view_advance pv = OK (pv', true) /\ pv_string pv' = s /\ shows pv' (elements s)
    end
  else shows pv (elements s).
Proof.
  intros As Ne. pose proof (ascii_c _ As) as Hc. destruct s as [|c s]; [congruence|].
  assert (Pa : path_is_abs (c :: s) = OK (is_abs (c :: s))) by reflexivity.
  destruct (is_abs (c :: s)) eqn:Ea.
  - cbn in Ea. apply Z.eqb_eq in Ea. subst c. destruct (new_advance _ Hc ltac:(eexists; reflexivity)) as (pv & A & B & C). exists pv. auto.
  - destruct (new_rel (c :: s)) as (pv & A & B & C); auto. exists pv. auto.
Qed.

Lemma simple_path_spec ops b s : history_ok ops -> denotes ops (b_dir b) -> specials_are_folders ops -> ascii_str s -> s <> [] ->
  exists o, simple_path_to_real b s = OK (option_map (fun '(r, t, tm) => (path_text r, t, tm)) o) /\
    simple_path_meets ops (elements s) o /\ sound ops [] [] false o.
Proof.
  intros Hh D Sp As Ne. pose proof Hh as (_ & _ & _ & Nc).
  destruct (start_path s As Ne) as (pv & E1 & Es & E2 & E3). unfold simple_path_to_real. rewrite E1. cbn [bind]. rewrite E2. cbn [bind].
  assert (Fin : forall pv', pv_string pv' = s -> forall e rest, elements s = e :: rest -> shows pv' (e :: rest) -> b_dir b <> [] ->
    exists o, (do i <- search (b_dir b) pv';
        match i with
        | Some i => do x <- aget (b_dir b) i;
          match x with
          | File _ _ _ _ _ => do '(_, more) <- path_view_advance pv'; OK (if more then None else Some ([SEP] ++ ename x, 255%Z, false))
          | Folder _ sub => simple_loop (S (length s)) sub ([SEP] ++ ename x) false pv'
          end
        | None => OK None
        end) = OK (option_map (fun '(r, t, tm) => (path_text r, t, tm)) o) /\ simple_path_meets ops (e :: rest) o /\ sound ops [] [] false o).
  { intros pv' Es' e rest El Sh Hd.
    assert (As' : ascii_str (pv_string pv')) by (rewrite Es'; exact As).
    pose proof (search_spec (b_dir b) pv' e rest (wf_good _ (proj1 D)) Hd Sh As') as Se.
    destruct (find_name e (b_dir b)) as [x|] eqn:Fe.
    - destruct Se as (i & -> & Se). cbn [bind]. unfold aget. rewrite Se. cbn [bind]. destruct x as [n vt sz fi pos|n sub].
      { exfalso. apply (denotes_top ops (b_dir b) Hh D e (vt, sz, fi, pos)). rewrite nd_cons, Fe. reflexivity. }
      destruct (find_folder ops (b_dir b) [] (b_dir b) e n sub D Nc eq_refl Fe) as (F & C & ->). cbn [app] in F, C. cbn [ename].
      assert (L : length rest < S (length s)) by (pose proof (elements_length_le s) as L; rewrite El in L; cbn in L; lia).
      destruct (simple_loop_spec ops (b_dir b) D Nc Sp rest e (S (length s)) sub pv' [e] [e] false C Sh As' ltac:(discriminate) F L) as (o & Eo & Mo & So).
      assert (So' : sound ops [] [] false o) by (apply (sound_step ops [] [] false o [e] [e] false); [apply drops_refl|auto|exact So]).
      exists o. split; [|split; [split; [auto|contradiction]|exact So']].
      change ([SEP] ++ e) with (SEP :: e). replace (SEP :: e) with (path_of [e]) by (unfold path_of; cbn; rewrite app_nil_r; reflexivity). rewrite Eo.
      destruct o as [[[r t] tm]|]; [|reflexivity]. destruct So as (zp & zr & -> & _). reflexivity.
    - rewrite Se. cbn [bind]. exists None. split; [reflexivity|]. split; [|exact I]. split; [|reflexivity].
      intros F. exfalso. apply (find_none ops (b_dir b) [] (b_dir b) e D Nc eq_refl) in Fe. apply Fe. left. exact F. }
  assert (Emp : b_dir b = [] -> forall e rest, simple_path_meets ops (e :: rest) None).
  { intros Hd e rest. split; [|reflexivity]. intros F. exfalso.
    assert (Fe : find_name e (b_dir b) = None) by (rewrite Hd; reflexivity).
    apply (find_none ops (b_dir b) [] (b_dir b) e D Nc eq_refl) in Fe. apply Fe. left. exact F. }
  assert (K : forall pv', pv_string pv' = s -> forall e rest, elements s = e :: rest -> shows pv' (e :: rest) ->
    exists o, match b_dir b with
      | [] => OK None
      | x0 :: dir0 => do i <- search (x0 :: dir0) pv';
        match i with
        | Some i => do x <- aget (x0 :: dir0) i;
          match x with
          | File _ _ _ _ _ => do '(_, more) <- path_view_advance pv'; OK (if more then None else Some ([SEP] ++ ename x, 255%Z, false))
          | Folder _ sub => simple_loop (S (length s)) sub ([SEP] ++ ename x) false pv'
          end
        | None => OK None
        end
      end = OK (option_map (fun '(r, t, tm) => (path_text r, t, tm)) o) /\ simple_path_meets ops (e :: rest) o /\ sound ops [] [] false o).
  { intros pv' Es' e rest El Sh. destruct (b_dir b) as [|x0 dir0] eqn:Ed.
    - exists None. split; [reflexivity|]. split; [apply Emp; reflexivity|exact I].
    - rewrite <- Ed in *. apply Fin; auto. rewrite Ed. discriminate. }
  destruct (is_abs s).
  - destruct (elements s) as [|e rest] eqn:El.
    + rewrite E3. cbn [bind negb]. exists (Some ([], 255%Z, false)). split; [reflexivity|]. split; [reflexivity|].
      exists [], []. split; [reflexivity|]. split; [left; auto|]. split; [constructor|auto].
    + destruct E3 as (pv' & E3 & Es' & Sh). rewrite E3. cbn [bind negb]. apply K; auto.
  - cbn [bind negb]. destruct (elements s) as [|e rest] eqn:El; [destruct E3 as (_ & _ & Q); discriminate|]. apply K; auto.
Qed.

(** ** timed paths *)
Fixpoint follow (cs : list entry) (tp : list nat) (rel : list (list Z)) (f : entry) : Prop :=
  match tp, rel with
  | [i], [n] => nth_error cs i = Some f /\ ename f = n /\ is_folder f = false
  | i :: tp', n :: rel' => exists sub, nth_error cs i = Some (Folder n sub) /\ follow sub tp' rel' f
  | _, _ => False
  end.
Lemma follow_cons cs i j tp n m rel f : follow cs (i :: j :: tp) (n :: m :: rel) f <-> exists sub, nth_error cs i = Some (Folder n sub) /\ follow sub (j :: tp) (m :: rel) f.
Proof. reflexivity. Qed.
Lemma follow_shape cs tp rel f : follow cs tp rel f -> tp <> [] /\ rel <> [] /\ length tp = length rel.
Proof.
  revert cs rel; induction tp as [|i [|j tp] IH]; intros cs [|n [|m rel]] H; try contradiction.
  - repeat split; discriminate.
  - destruct H as (sub & _ & H). contradiction.
  - destruct H as (sub & _ & H). destruct tp; contradiction.
  - destruct H as (sub & _ & H). apply IH in H as (_ & _ & H). repeat split; try discriminate. cbn in *. lia.
Qed.

Lemma search_d_spec : forall rel fuel m cs pv vt sz fi pos, wf cs -> shows pv rel -> ascii_str (pv_string pv) -> length rel <= fuel ->
  nd cs rel = Some (NFile (vt, sz, fi, pos)) ->
  exists tp, search_d fuel (Folder m cs) pv = OK (Some tp) /\ follow cs tp rel (File (last rel []) vt sz fi pos).
Proof.
  induction rel as [|n rel IH]; intros fuel m cs pv vt sz fi pos W Sh As L H; [destruct Sh as (_ & _ & Q); discriminate|].
  destruct fuel as [|fuel]; [cbn in L; lia|]. cbn [search_d num_children search_in child]. rewrite nd_cons in H.
  destruct (find_name n cs) as [c|] eqn:F; [|discriminate].
  assert (Ne : cs <> []) by (intros ->; discriminate).
  destruct (Z.eqb_spec (Z.of_nat (length cs)) 0) as [Q|_]; [destruct cs; [congruence|cbn in Q; lia]|].
  pose proof (search_spec cs pv n rel (wf_good _ W) Ne Sh As) as Se. rewrite F in Se. destruct Se as (i & Es & Se). rewrite Es. cbn [bind].
  unfold aget. rewrite Se. cbn [bind]. pose proof (shows_advance pv n rel Sh) as Ad. destruct (find_name_some _ _ _ F) as (_ & En).
  destruct c as [k vt' sz' fi' pos'|k sub].
  - destruct rel as [|n2 rel]; [|discriminate]. cbn in H. injection H as -> -> -> ->. rewrite Ad. cbn [bind]. exists [i]. split; [reflexivity|].
    cbn in En. subst k. cbn. auto.
  - cbn [ename] in En. subst k. destruct rel as [|n2 rel]; [discriminate|]. destruct Ad as (pv' & Ad & Sh' & Es' & _). rewrite Ad. cbn [bind negb].
    rewrite node_folder in H.
    destruct (IH fuel n sub pv' vt sz fi pos) as (tp & Et & Ft); auto; [eapply wf_sub; eassumption|rewrite Es'; exact As|cbn in L |- *; lia|].
    rewrite Et. cbn [bind option_map]. exists (i :: tp). split; [reflexivity|]. destruct (follow_shape _ _ _ _ Ft) as (Ntp & _ & _). destruct tp as [|j tp]; [congruence|].
    apply follow_cons. exists sub. split; [exact Se|exact Ft].
Qed.

Lemma children_at_app cs p q : children_at cs (p ++ q) = match children_at cs p with Some sub => children_at sub q | None => None end.
Proof.
  revert cs; induction p as [|n p IH]; intros cs; [reflexivity|]. cbn [app children_at]. destruct (find_name n cs) as [[|m sub]|]; [reflexivity|apply IH|reflexivity].
Qed.

(** [cs]: children of the folder; [n]: first element of the variable inside of
    the steps *)
Lemma search_timed_loop_spec variable : forall fld e fuel cs pv rel n a dn ds z sub vt sz fi pos folder, wf cs -> shows pv (e :: fld ++ n :: rel) -> ascii_str (pv_string pv) ->
  length fld < fuel -> length (n :: rel) <= S (length variable) -> children_at cs fld = Some folder -> find_name n folder = None ->
  split_d folder a (Folder dn sub :: ds) z -> wf sub -> nd sub (n :: rel) = Some (NFile (vt, sz, fi, pos)) ->
  exists tp, search_timed_loop fuel variable cs pv = OK (inr (folder, tp)) /\ follow sub tp (n :: rel) (File (last (n :: rel) []) vt sz fi pos).
Proof.
  induction fld as [|x fld IH]; intros e fuel cs pv rel n a dn ds z sub vt sz fi pos folder W Sh As L Lv C Fn Sd Ws H;
    (destruct fuel as [|fuel]; [lia|]); cbn [search_timed_loop].
  - cbn [app] in Sh. pose proof (shows_advance pv e (n :: rel) Sh) as (pv' & Ad & Sh' & Es & _). rewrite Ad. cbn [bind negb].
    assert (As' : ascii_str (pv_string pv')) by (rewrite Es; exact As).
    cbn [children_at] in C. injection C as ->.
    assert (Ne : folder <> []) by (destruct Sd as (-> & _); destruct a; discriminate).
    pose proof (search_spec folder pv' n rel (wf_good _ W) Ne Sh' As') as Se. rewrite Fn in Se.
    pose proof (span_d a (Folder dn sub :: ds) z folder Sd (proj2 (wf_good _ W))) as (_ & _ & Fd).
    destruct folder as [|c0 folder]; [congruence|]. rewrite Se. cbn [bind]. rewrite Fd. cbn [bind].
    destruct (search_d_spec (n :: rel) (S (length variable)) dn sub pv' vt sz fi pos Ws Sh' As' Lv H) as (tp & Et & Ft).
    rewrite Et. cbn [bind]. exists tp. auto.
  - cbn [app] in Sh. pose proof (shows_advance pv e (x :: fld ++ n :: rel) Sh) as (pv' & Ad & Sh' & Es & _). rewrite Ad. cbn [bind negb].
    assert (As' : ascii_str (pv_string pv')) by (rewrite Es; exact As).
    cbn [children_at] in C. destruct (find_name x cs) as [[|m sub']|] eqn:Fx; try discriminate.
    assert (Ne : cs <> []) by (intros ->; discriminate).
    pose proof (search_spec cs pv' x (fld ++ n :: rel) (wf_good _ W) Ne Sh' As') as Se. rewrite Fx in Se. destruct Se as (i & Se & Ni).
    destruct cs as [|c0 cs]; [congruence|]. rewrite Se. cbn [bind]. unfold aget. rewrite Ni. cbn [bind].
    apply (IH x fuel sub' pv' rel n a dn ds z sub vt sz fi pos folder); auto; [exact (wf_sub _ _ _ _ W Fx)|cbn in L; lia].
Qed.

Lemma open_first : forall tp rel m cs f, follow cs tp rel f -> open_timed_path (Folder m cs) tp None = OK (Some f).
Proof.
  induction tp as [|i tp IH]; intros rel m cs f H; [contradiction|]. cbn [open_timed_path num_children child].
  destruct rel as [|n rel]; [destruct tp; contradiction|]. destruct tp as [|j tp].
  - destruct rel as [|n2 rel].
    + destruct H as (E & _ & Nf). pose proof (nth_error_Some_lt _ _ _ E). destruct (Z.ltb_spec (Z.of_nat (length cs)) (Z.of_nat i + 1)); [lia|].
      unfold aget. rewrite E. cbn [bind]. destruct f; [reflexivity|discriminate].
    + destruct H as (sub & _ & H). contradiction.
  - destruct rel as [|n2 rel]; [destruct H as (sub & _ & H); destruct tp; contradiction|]. apply follow_cons in H as (sub & E & H).
    pose proof (nth_error_Some_lt _ _ _ E). destruct (Z.ltb_spec (Z.of_nat (length cs)) (Z.of_nat i + 1)); [lia|].
    unfold aget. rewrite E. cbn [bind]. apply (IH (n2 :: rel)). exact H.
Qed.

Lemma map_nth_name cs cs2 i c : map ename cs = map ename cs2 -> nth_error cs i = Some c -> exists c2, nth_error cs2 i = Some c2 /\ ename c2 = ename c.
Proof.
  intros E H. assert (Q : nth_error (map ename cs2) i = Some (ename c)) by (rewrite <- E, nth_error_map, H; reflexivity).
  rewrite nth_error_map in Q. destruct (nth_error cs2 i) as [c2|]; [|discriminate]. exists c2. injection Q as Q. auto.
Qed.

Lemma open_same : forall tp rel m cs cs2 f vt sz fi pos, wf cs -> wf cs2 -> follow cs tp rel f -> nd cs2 rel = Some (NFile (vt, sz, fi, pos)) ->
  (forall q sub sub2, prefix q (removelast rel) -> children_at cs q = Some sub -> children_at cs2 q = Some sub2 -> map ename sub = map ename sub2) ->
  open_timed_path (Folder m cs2) tp (Some (last rel [])) = OK (Some (File (last rel []) vt sz fi pos)).
Proof.
  induction tp as [|i tp IH]; intros rel m cs cs2 f vt sz fi pos W W2 H Hn Hs; [contradiction|].
  pose proof (Hs [] cs cs2 (prefix_nil _) eq_refl eq_refl) as Em.
  destruct rel as [|n rel]; [destruct tp; contradiction|]. cbn [open_timed_path num_children child]. rewrite nd_cons in Hn.
  destruct tp as [|j tp].
  - destruct rel as [|n2 rel]; [|destruct H as (sub & _ & H); contradiction].
    destruct H as (E & En & Nf). destruct (map_nth_name _ _ _ _ Em E) as (c2 & E2 & En2). pose proof (nth_error_Some_lt _ _ _ E2).
    destruct (Z.ltb_spec (Z.of_nat (length cs2)) (Z.of_nat i + 1)); [lia|]. unfold aget. rewrite E2. cbn [bind].
    rewrite (good_nth cs2 n c2 i (wf_good _ W2) E2) in Hn by congruence. cbn [node_of kind] in Hn. destruct c2 as [k vt' sz' fi' pos'|]; [|discriminate].
    cbn [kind] in Hn. injection Hn as -> -> -> ->. cbn [ename] in En2. rewrite En2, En. cbn [last]. rewrite strcmp_refl. reflexivity.
  - destruct rel as [|n2 rel]; [destruct H as (sub & _ & H); destruct tp; contradiction|]. apply follow_cons in H as (sub & E & H).
    destruct (map_nth_name _ _ _ _ Em E) as (c2 & E2 & En2). pose proof (nth_error_Some_lt _ _ _ E2).
    destruct (Z.ltb_spec (Z.of_nat (length cs2)) (Z.of_nat i + 1)); [lia|]. unfold aget. rewrite E2. cbn [bind].
    pose proof (good_nth cs2 n c2 i (wf_good _ W2) E2 En2) as F2. rewrite F2 in Hn. destruct c2 as [|k sub2]; [discriminate|]. cbn [ename] in En2. subst k. rewrite node_folder in Hn.
    pose proof (good_nth cs n _ i (wf_good _ W) E eq_refl) as F1.
    change (last (n :: n2 :: rel) []) with (last (n2 :: rel) []).
    apply (IH (n2 :: rel) n sub sub2 f); [exact (wf_sub _ _ _ _ W F1)|exact (wf_sub _ _ _ _ W2 F2)|exact H|exact Hn|].
    intros q s1 s2 Pq C1 C2. apply (Hs (n :: q)); [|cbn [children_at]; rewrite F1; exact C1|cbn [children_at]; rewrite F2; exact C2].
    change (removelast (n :: n2 :: rel)) with (n :: removelast (n2 :: rel)). apply prefix_cons. auto.
Qed.

Lemma search_timed_spec ops b variable fld rel folder a dn ds z sub vt sz fi pos : denotes ops (b_dir b) -> noclash ops ->
  ascii_str variable -> absolute variable -> elements variable = fld ++ rel -> fld <> [] -> rel <> [] ->
  children_at (b_dir b) fld = Some folder -> find_name (List.hd [] rel) folder = None -> split_d folder a (Folder dn sub :: ds) z -> wf sub ->
  nd sub rel = Some (NFile (vt, sz, fi, pos)) ->
  exists tp, search_timed b variable = OK (inr (folder, tp)) /\ follow sub tp rel (File (last rel []) vt sz fi pos).
Proof.
  intros D Nc As Ab El Nf Nr C Fn Sd Ws H. destruct fld as [|x fld]; [congruence|]. destruct rel as [|n rel]; [congruence|].
  cbn [children_at] in C. destruct (find_name x (b_dir b)) as [[|m top]|] eqn:Fx; try discriminate.
  destruct (new_advance variable (ascii_c _ As) Ab) as (pv & E1 & Es & E2). rewrite El in E2. cbn [app] in E2. destruct E2 as (pv' & Ad & Es' & Sh).
  assert (As' : ascii_str (pv_string pv')) by (rewrite Es'; exact As).
  assert (Ne : b_dir b <> []) by (intros Q; rewrite Q in Fx; discriminate).
  pose proof (search_spec (b_dir b) pv' x _ (wf_good _ (proj1 D)) Ne Sh As') as Se. rewrite Fx in Se. destruct Se as (i & Se & Ni).
  unfold search_timed. destruct (b_dir b) as [|c0 cs] eqn:Ed; [congruence|]. rewrite <- Ed in *. rewrite E1. cbn [bind]. rewrite Ad. cbn [bind negb].
  rewrite Se. cbn [bind]. unfold aget. rewrite Ni. cbn [bind].
  pose proof (elements_length_le variable) as L. rewrite El, app_length in L. cbn [length] in L.
  apply (search_timed_loop_spec variable fld x (S (length variable)) top pv' rel n a dn ds z sub vt sz fi pos folder); auto.
  - exact (wf_sub _ _ _ _ (proj1 D) Fx).
  - lia.
  - cbn [length]. lia.
Qed.

(** ** reading the steps *)
Lemma has_bytes_read files vt sz fi pos bytes : has_bytes files (vt, sz, fi, pos) bytes -> (0 < sz)%Z ->
  exists data, nth_error files (Z.to_nat fi) = Some (Some (Content data)) /\ fseek_to pos = Some pos /\
    firstn (Z.to_nat sz) (skipn (Z.to_nat pos) data) = bytes /\ length bytes = Z.to_nat sz /\ fread data pos sz 1 = Some (bytes, (pos + sz * 1)%Z).
Proof.
  intros (data & E & (P1 & P2) & P3 & P4 & ->) Hs. exists data. split; [exact E|]. split.
  - unfold fseek_to. destruct (Z.leb_spec 0 pos); [|lia]. destruct (Z.ltb_spec pos (2 ^ 63)); [reflexivity|lia].
  - split; [reflexivity|]. split; [rewrite firstn_length, skipn_length; lia|]. unfold fread. change (1 =? 0)%Z with false. cbn iota.
    destruct (Z.ltb_spec 0 sz); [|lia]. destruct (Z.leb_spec (pos + sz * 1) (Z.of_nat (length data))); [|lia]. cbn [andb]. rewrite Z.mul_1_r. reflexivity.
Qed.

Lemma write_row (pre row : list Z) m : length row <= m ->
  memcpy (pre ++ repeat JUNK m) (length pre) row 0 (length row) = OK ((pre ++ row) ++ repeat JUNK (m - length row)).
Proof.
  intros L. rewrite memcpy_ok; [|rewrite app_length, repeat_length; lia|lia]. rewrite firstn_app_exact, <- app_assoc. do 2 f_equal. rewrite skipn_O, firstn_all. f_equal.
  rewrite <- skipn_skipn, skipn_app_exact. replace m with (length row + (m - length row)) at 1 by lia. rewrite repeat_app.
  replace (length row) with (length (repeat JUNK (length row))) at 1 by apply repeat_length. apply skipn_app_exact.
Qed.

Lemma read_steps_spec b variable values steps tp name sz : (0 < sz)%Z -> forall ds rows pre k,
  Forall2 (fun d row => exists nm vt fi pos, open_timed_path d tp (Some name) = OK (Some (File nm vt sz fi pos)) /\ has_bytes (b_files b) (vt, sz, fi, pos) row) ds rows ->
  length pre = k * Z.to_nat sz ->
  read_steps b variable values steps tp name ds k (pre ++ repeat JUNK (length ds * Z.to_nat sz)) =
    OK {| t_data := Some (pre ++ concat rows); t_values := values; t_steps := steps; t_error := None |}.
Proof.
  intros Hs. induction ds as [|d ds IH]; intros rows pre k F L; inversion F as [|? row ? rows' (nm & vt & fi & pos & Eo & Hb) F']; subst; cbn [read_steps].
  - cbn. rewrite !app_nil_r. reflexivity.
  - rewrite Eo. cbn [bind]. destruct (has_bytes_read _ _ _ _ _ _ Hb Hs) as (data & E & Ef & Er & Lr & Ed). unfold aget. rewrite E. cbn [bind]. rewrite Ef.
    cbv zeta. rewrite Er, <- L. replace (length (d :: ds) * Z.to_nat sz) with (length row + length ds * Z.to_nat sz) by (rewrite Lr; cbn [length]; lia).
    rewrite write_row by lia. cbn [bind]. rewrite Ed. replace (length row + length ds * Z.to_nat sz - length row) with (length ds * Z.to_nat sz) by lia.
    rewrite (IH rows' (pre ++ row)); [|exact F'|rewrite app_length, L, Lr; lia]. cbn [concat]. rewrite app_assoc. reflexivity.
Qed.

Lemma Forall2_map_in {A B C} (f : A -> B) (P : B -> C -> Prop) (Q : A -> C -> Prop) : forall l m, Forall2 P (map f l) m ->
  (forall x y, In x l -> In y m -> P (f x) y -> Q x y) -> Forall2 Q l m.
Proof.
  induction l as [|x l IH]; intros m F H; inversion F as [|? y ? m' P1 F']; subst; constructor.
  - apply H; [left; reflexivity|left; reflexivity|exact P1].
  - apply IH; [exact F'|]. intros x' y' I I'. apply H; right; assumption.
Qed.

(** the entry of a step *)
Lemma step_entry ops dir fld folder e rel vt sz fi pos : denotes ops dir -> noclash ops -> children_at dir fld = Some folder -> In e folder -> rel <> [] ->
  last_record (records [] ops) (fld ++ ename e :: rel) (Some (vt, sz, fi, pos)) ->
  exists sub, e = Folder (ename e) sub /\ children_at dir (fld ++ [ename e]) = Some sub /\ wf sub /\ nd sub rel = Some (NFile (vt, sz, fi, pos)).
Proof.
  intros D Nc C I Nr L. pose proof (proj1 D fld folder C) as G.
  assert (F : find_name (ename e) folder = Some e) by (apply In_nth_error in I as (k & I); eapply good_nth; [exact G|exact I|reflexivity]).
  pose proof (proj2 D (fld ++ ename e :: rel)) as Q. rewrite (nd_app dir fld folder (ename e :: rel) C), nd_cons, F in Q.
  assert (Hn : node_of e rel = Some (NFile (vt, sz, fi, pos))).
  { destruct (node_of e rel) as [[i|]|].
    - pose proof (last_record_unique _ _ _ _ Q L) as Q'. congruence.
    - exfalso. destruct Q as [Q|Q]; [destruct fld; discriminate|]. apply last_record_in in L. exact (Nc _ _ L Q).
    - exfalso. destruct Q as (Q & _). apply last_record_in in L. exact (Q _ L). }
  destruct e as [nm vt' sz' fi' pos'|nm sub].
  - destruct rel; [congruence|discriminate].
  - exists sub. cbn [ename] in *. rewrite node_folder in Hn. split; [reflexivity|].
    assert (Cs : children_at dir (fld ++ [nm]) = Some sub) by (rewrite children_at_app, C; cbn [children_at]; rewrite F; reflexivity).
    split; [exact Cs|]. split; [|exact Hn]. intros q s Qs. apply (proj1 D ((fld ++ [nm]) ++ q)). rewrite children_at_app, Cs. exact Qs.
Qed.

Lemma read_timed_regular ops b variable fld rel steps rows size t v0 s0 : denotes ops (b_dir b) -> noclash ops ->
  ascii_str variable -> absolute variable -> elements variable = fld ++ rel -> fld <> [] -> rel <> [] ->
  is_folder_path ops fld -> ~ exists_path ops (fld ++ [List.hd [] rel]) -> tidy ops fld -> steps_of ops fld steps -> steps <> [] ->
  Forall2 (step_value ops (b_files b) fld rel) steps rows -> Forall (fun row => Z.of_nat (length row) = size) rows ->
  Forall (same_entries ops fld rel (List.hd [] steps)) steps ->
  (0 < size / type_size t)%Z -> (size * Z.of_nat (length steps) < 2 ^ 64)%Z ->
  read_timed b variable v0 s0 t = OK {| t_data := Some (concat rows); t_values := (size / type_size t)%Z; t_steps := Z.of_nat (length steps); t_error := None |}.
Proof.
  intros D Nc As Ab El Nf Nr Ff Nx T St Ns F Ls Sm Hv Ho.
  assert (Ht : (0 < type_size t)%Z). { unfold type_size. repeat match goal with |- context [if ?c then _ else _] => destruct c end; lia. }
  assert (Hs : (0 < size)%Z).
  { destruct (Z.le_gt_cases size 0) as [Q|Q]; [|lia]. exfalso. apply Z.lt_nge in Hv. apply Hv. apply Z.div_le_upper_bound; lia. }
  destruct (folder_children ops _ fld D Nc (or_intror Ff)) as (cs & C).
  destruct (tidy_split ops _ fld cs D Nc C T) as (a & ds & z & Sd & G & _ & Un). specialize (Un steps St). subst steps.
  assert (Hin : forall e, In e ds -> In e cs) by (intros e I; destruct Sd as (-> & _); apply in_or_app; right; apply in_or_app; left; exact I).
  assert (Ent : forall e row, In e ds -> In row rows -> step_value ops (b_files b) fld rel (ename e) row ->
    exists sub vt fi pos, e = Folder (ename e) sub /\ children_at (b_dir b) (fld ++ [ename e]) = Some sub /\ wf sub /\ nd sub rel = Some (NFile (vt, size, fi, pos)) /\
      has_bytes (b_files b) (vt, size, fi, pos) row).
  { intros e row I Ir ((((vt & sz) & fi) & pos) & L & Hb).
    assert (sz = size) as ->.
    { rewrite Forall_forall in Ls. specialize (Ls row Ir). destruct Hb as (data & _ & B0 & B1 & B2 & ->). rewrite firstn_length, skipn_length in Ls. lia. }
    destruct (step_entry ops _ fld cs e rel vt size fi pos D Nc C (Hin e I) Nr L) as (sub & E1 & E2 & E3 & E4).
    exists sub, vt, fi, pos. auto. }
  destruct ds as [|d0 ds]; [exfalso; apply Ns; reflexivity|].
  pose proof F as F0. cbn [map] in F. inversion F as [|? row0 ? rows' V0 F']; subst.
  destruct (Ent d0 row0 (or_introl eq_refl) (or_introl eq_refl) V0) as (sub0 & vt0 & fi0 & pos0 & E0 & C0 & W0 & H0 & B0).
  assert (Fn : find_name (List.hd [] rel) cs = None) by (apply (find_none ops (b_dir b) fld cs _ D Nc C); exact Nx).
  destruct (search_timed_spec ops b variable fld rel cs a (ename d0) ds z sub0 vt0 size fi0 pos0 D Nc As Ab El Nf Nr C Fn) as (tp & Et & Ft); auto.
  { rewrite <- E0. exact Sd. }
  pose proof (span_d a (d0 :: ds) z cs Sd (proj2 G)) as (S1 & S2 & _).
  unfold read_timed. rewrite Et. cbn [bind]. rewrite S1. cbn [bind]. rewrite S2. cbn [bind].
  assert (Ag : aget cs (length a) = OK d0) by (apply aget_OK; destruct Sd as (-> & _); rewrite nth_error_app2, Nat.sub_diag by lia; reflexivity).
  rewrite Ag. cbn [bind].
  assert (Op : open_timed_path d0 tp None = OK (Some (File (last rel []) vt0 size fi0 pos0))) by (rewrite E0; apply (open_first tp rel); exact Ft).
  rewrite Op. cbn [bind]. cbv zeta.
  destruct (Z.eqb_spec (size / type_size t) 0) as [Q0|_]; [lia|].
  replace (length a + length (d0 :: ds) - 1 - length a + 1) with (length (d0 :: ds)) by (cbn [length]; lia).
  rewrite map_length in Ho |- *.
  replace (u64 (size * Z.of_nat (length (d0 :: ds)))) with (size * Z.of_nat (length (d0 :: ds)))%Z by (unfold u64; rewrite Z.mod_small; [reflexivity|split; [apply Z.mul_nonneg_nonneg; lia|exact Ho]]).
  assert (Lk : firstn (length (d0 :: ds)) (skipn (length a) cs) = d0 :: ds).
  { destruct Sd as (-> & _). rewrite skipn_app_exact. apply firstn_app_exact. }
  rewrite Lk. unfold malloc. replace (Z.to_nat (size * Z.of_nat (length (d0 :: ds)))) with (length (d0 :: ds) * Z.to_nat size) by (rewrite Z2Nat.inj_mul, Nat2Z.id by lia; apply Nat.mul_comm).
  rewrite <- (app_nil_l (repeat JUNK _)).
  rewrite (read_steps_spec b variable _ _ tp (last rel []) size Hs (d0 :: ds) (row0 :: rows')); [reflexivity| |reflexivity].
  apply (Forall2_map_in ename _ _ _ _ F0). intros e row I Ir V.
  destruct (Ent e row I Ir V) as (sub & vt & fi & pos & E1 & C1 & W1 & H1 & B1).
  exists (last rel []), vt, fi, pos. split; [|exact B1]. rewrite E1.
  apply (open_same tp rel (ename e) sub0 sub (File (last rel []) vt0 size fi0 pos0)); auto.
  intros q s1 s2 Pq Q1 Q2.
  assert (Cq : forall e0 sub1 s, children_at (b_dir b) (fld ++ [e0]) = Some sub1 -> children_at sub1 q = Some s -> children_at (b_dir b) (fld ++ e0 :: q) = Some s).
  { intros e0 sub1 s A1 A2. change (e0 :: q) with ([e0] ++ q). rewrite app_assoc, children_at_app, A1. exact A2. }
  apply strict_unique.
  - apply (proj1 D (fld ++ ename d0 :: q)). eapply Cq; eassumption.
  - apply (proj1 D (fld ++ ename e :: q)). eapply Cq; eassumption.
  - intros n. rewrite (children_exists ops (b_dir b) (fld ++ ename d0 :: q) s1 D Nc (Cq _ _ _ C0 Q1)), (children_exists ops (b_dir b) (fld ++ ename e :: q) s2 D Nc (Cq _ _ _ C1 Q2)).
    rewrite <- !app_assoc. cbn [app]. rewrite Forall_forall in Sm. apply (Sm (ename e)); [apply in_map with (f := ename) in I; exact I|exact Pq].
Qed.

(** ** a variable directly inside of the steps: values or an error *)
Lemma open_one i n m cs2 vt sz fi pos : wf cs2 -> proper n -> ascii_str n -> nd cs2 [n] = Some (NFile (vt, sz, fi, pos)) ->
  exists o, open_timed_path (Folder m cs2) [i] (Some n) = OK o /\ (o = None \/ o = Some (File n vt sz fi pos)).
Proof.
  intros W (Nn & Ns) As H. rewrite nd_cons in H. destruct (find_name n cs2) as [e|] eqn:F; [|discriminate]. destruct e as [k vt' sz' fi' pos'|]; [|discriminate].
  cbn [node_of kind] in H. injection H as -> -> -> ->. destruct (find_name_some _ _ _ F) as (I & En). cbn in En. subst k.
  cbn [open_timed_path num_children child]. destruct (Z.ltb_spec (Z.of_nat (length cs2)) (Z.of_nat i + 1)); [exists None; auto|].
  destruct (nth_error cs2 i) as [c|] eqn:E; [|apply nth_error_None in E; lia]. unfold aget at 1. rewrite E. cbn [bind].
  destruct c as [k vt' sz' fi' pos'|]; [|exists None; auto]. destruct (Z.eqb_spec (strcmp k n) 0) as [Q|Q]; cbn [negb].
  - apply strcmp_eq in Q. subst k. rewrite (good_nth cs2 n _ i (wf_good _ W) E eq_refl) in F. injection F as -> -> -> ->. eexists. split; [reflexivity|]. auto.
  - destruct (new_rel n (ascii_c _ As) Nn) as (pv & E1 & Es & Sh).
    { destruct n as [|x n]; [congruence|]. cbn. apply Z.eqb_neq. intros ->. apply Ns. left. reflexivity. }
    rewrite E1. cbn [bind search_in]. assert (El : elements n = [n]) by (unfold elements; rewrite split_sep_end by exact Ns; cbn; destruct n; [congruence|reflexivity]).
    rewrite El in Sh. assert (Ne : cs2 <> []) by (intros ->; discriminate). assert (As' : ascii_str (pv_string pv)) by (rewrite Es; exact As).
    pose proof (search_spec cs2 pv n [] (wf_good _ W) Ne Sh As') as Se. rewrite F in Se. destruct Se as (j & -> & Ej). cbn [bind child]. unfold aget. rewrite Ej. cbn [bind]. eexists. split; [reflexivity|]. auto.
Qed.

(** what a failing timed read returns *)
Lemma timed_fails_ok v s m : length m < 1024 -> timed_fails v s m = OK {| t_data := None; t_values := v; t_steps := s; t_error := Some m |}.
Proof. intros L. unfold timed_fails, error_string. apply Nat.ltb_lt in L. rewrite L. reflexivity. Qed.
Lemma decimal_length n : forall z acc, length (decimal n z acc) <= n + length acc.
Proof. induction n as [|n IH]; intros z acc; cbn [decimal]; [lia|]. destruct (z <? 10)%Z; [cbn; lia|]. etransitivity; [apply IH|]. cbn. lia. Qed.

(** like [read_steps_spec], but steps may be missing *)
Lemma read_steps_safe b variable values steps tp name sz : (0 < sz)%Z -> length variable < 900 -> forall ds rows pre k,
  Forall2 (fun d row => exists o nm vt fi pos, open_timed_path d tp (Some name) = OK o /\ (o = None \/ o = Some (File nm vt sz fi pos)) /\ has_bytes (b_files b) (vt, sz, fi, pos) row) ds rows ->
  length pre = k * Z.to_nat sz ->
  exists r, read_steps b variable values steps tp name ds k (pre ++ repeat JUNK (length ds * Z.to_nat sz)) = OK r /\
    ((t_data r = Some (pre ++ concat rows) /\ t_values r = values /\ t_steps r = steps /\ t_error r = None) \/ (t_data r = None /\ t_error r <> None)).
Proof.
  intros Hs Lv. induction ds as [|d ds IH]; intros rows pre k F L; inversion F as [|? row ? rows' (o & nm & vt & fi & pos & Eo & Ho & Hb) F']; subst; cbn [read_steps].
  - eexists. split; [reflexivity|]. left. cbn. rewrite !app_nil_r. auto.
  - rewrite Eo. cbn [bind]. destruct Ho as [->| ->].
    + rewrite timed_fails_ok; [eexists; split; [reflexivity|]; right; split; [reflexivity|discriminate]|].
      pose proof (decimal_length 20 (Z.of_nat k) []) as Ld. unfold nat_string. rewrite !app_length. cbn [bs length] in *. lia.
    + destruct (has_bytes_read _ _ _ _ _ _ Hb Hs) as (data & E & Ef & Er & Lr & Ed). unfold aget. rewrite E. cbn [bind]. rewrite Ef.
      cbv zeta. rewrite Er, <- L. replace (length (d :: ds) * Z.to_nat sz) with (length row + length ds * Z.to_nat sz) by (rewrite Lr; cbn [length]; lia).
      rewrite write_row by lia. cbn [bind]. rewrite Ed. replace (length row + length ds * Z.to_nat sz - length row) with (length ds * Z.to_nat sz) by lia.
      destruct (IH rows' (pre ++ row) (k + 1)) as (r & Er2 & Hr); [exact F'|rewrite app_length, L, Lr; lia|]. exists r. split; [exact Er2|].
      cbn [concat]. rewrite app_assoc. exact Hr.
Qed.

Lemma read_timed_direct ops b variable fld n steps rows size t v0 s0 : denotes ops (b_dir b) -> noclash ops -> proper n ->
  ascii_str variable -> absolute variable -> length variable < 900 -> elements variable = fld ++ [n] -> fld <> [] ->
  is_folder_path ops fld -> ~ exists_path ops (fld ++ [n]) -> tidy ops fld -> steps_of ops fld steps -> steps <> [] ->
  Forall2 (step_value ops (b_files b) fld [n]) steps rows -> Forall (fun row => Z.of_nat (length row) = size) rows ->
  (size * Z.of_nat (length steps) < 2 ^ 64)%Z ->
  exists r, read_timed b variable v0 s0 t = OK r /\
    ((t_data r = Some (concat rows) /\ t_values r = (size / type_size t)%Z /\ t_steps r = Z.of_nat (length steps) /\ t_error r = None) \/ (t_data r = None /\ t_error r <> None)).
Proof.
  intros D Nc Pn As Ab Lv El Nf Ff Nx T St Ns F Ls Ho.
  assert (Ht : (0 < type_size t)%Z). { unfold type_size. repeat match goal with |- context [if ?c then _ else _] => destruct c end; lia. }
  assert (An : ascii_str n). { pose proof (elements_ascii variable As) as Q. rewrite El in Q. apply Forall_app in Q as (_ & Q). inversion Q; assumption. }
  destruct (folder_children ops _ fld D Nc (or_intror Ff)) as (cs & C).
  destruct (tidy_split ops _ fld cs D Nc C T) as (a & ds & z & Sd & G & _ & Un). specialize (Un steps St). subst steps.
  assert (Hin : forall e, In e ds -> In e cs) by (intros e I; destruct Sd as (-> & _); apply in_or_app; right; apply in_or_app; left; exact I).
  assert (Nr : [n] <> []) by discriminate.
  assert (Ent : forall e row, In e ds -> In row rows -> step_value ops (b_files b) fld [n] (ename e) row ->
    exists sub vt fi pos, e = Folder (ename e) sub /\ children_at (b_dir b) (fld ++ [ename e]) = Some sub /\ wf sub /\ nd sub [n] = Some (NFile (vt, size, fi, pos)) /\
      has_bytes (b_files b) (vt, size, fi, pos) row).
  { intros e row I Ir ((((vt & sz) & fi) & pos) & L & Hb).
    assert (sz = size) as ->.
    { rewrite Forall_forall in Ls. specialize (Ls row Ir). destruct Hb as (data & _ & B0 & B1 & B2 & ->). rewrite firstn_length, skipn_length in Ls. lia. }
    destruct (step_entry ops _ fld cs e [n] vt size fi pos D Nc C (Hin e I) Nr L) as (sub & E1 & E2 & E3 & E4).
    exists sub, vt, fi, pos. auto. }
  destruct ds as [|d0 ds]; [exfalso; apply Ns; reflexivity|].
  pose proof F as F0. cbn [map] in F. inversion F as [|? row0 ? rows' V0 F']; subst.
  destruct (Ent d0 row0 (or_introl eq_refl) (or_introl eq_refl) V0) as (sub0 & vt0 & fi0 & pos0 & E0 & C0 & W0 & H0 & B0).
  assert (Hsz : (0 <= size)%Z) by (destruct B0 as (? & _ & _ & _ & Q & _); exact Q).
  assert (Fn : find_name (List.hd [] [n]) cs = None) by (apply (find_none ops (b_dir b) fld cs _ D Nc C); exact Nx).
  destruct (search_timed_spec ops b variable fld [n] cs a (ename d0) ds z sub0 vt0 size fi0 pos0 D Nc As Ab El Nf Nr C Fn) as (tp & Et & Ft); auto.
  { rewrite <- E0. exact Sd. }
  destruct tp as [|i [|j tp]]; [contradiction| |destruct Ft as (? & _ & Ft); destruct tp; contradiction].
  pose proof (span_d a (d0 :: ds) z cs Sd (proj2 G)) as (S1 & S2 & _).
  unfold read_timed. rewrite Et. cbn [bind]. rewrite S1. cbn [bind]. rewrite S2. cbn [bind].
  assert (Ag : aget cs (length a) = OK d0) by (apply aget_OK; destruct Sd as (-> & _); rewrite nth_error_app2, Nat.sub_diag by lia; reflexivity).
  rewrite Ag. cbn [bind].
  assert (Op : open_timed_path d0 [i] None = OK (Some (File n vt0 size fi0 pos0))) by (rewrite E0; apply (open_first [i] [n]); exact Ft).
  rewrite Op. cbn [bind]. cbv zeta.
  replace (length a + length (d0 :: ds) - 1 - length a + 1) with (length (d0 :: ds)) by (cbn [length]; lia).
  rewrite map_length in Ho |- *.
  destruct (Z.eqb_spec (size / type_size t) 0) as [Q0|Q0].
  { rewrite timed_fails_ok; [eexists; split; [reflexivity|]; right; split; [reflexivity|discriminate]|]. rewrite !app_length. cbn [bs length]. lia. }
  assert (Hs : (0 < size)%Z).
  { destruct (Z.eq_dec size 0) as [Q|Q]; [|lia]. exfalso. apply Q0. rewrite Q. apply Z.div_0_l. lia. }
  replace (u64 (size * Z.of_nat (length (d0 :: ds)))) with (size * Z.of_nat (length (d0 :: ds)))%Z by (unfold u64; rewrite Z.mod_small; [reflexivity|split; [apply Z.mul_nonneg_nonneg; lia|exact Ho]]).
  assert (Lk : firstn (length (d0 :: ds)) (skipn (length a) cs) = d0 :: ds).
  { destruct Sd as (-> & _). rewrite skipn_app_exact. apply firstn_app_exact. }
  rewrite Lk. unfold malloc. replace (Z.to_nat (size * Z.of_nat (length (d0 :: ds)))) with (length (d0 :: ds) * Z.to_nat size) by (rewrite Z2Nat.inj_mul, Nat2Z.id by lia; apply Nat.mul_comm).
  rewrite <- (app_nil_l (repeat JUNK _)).
  apply (read_steps_safe b variable _ _ [i] n size Hs Lv (d0 :: ds) (row0 :: rows') []); [|reflexivity].
  apply (Forall2_map_in ename _ _ _ _ F0). intros e row I Ir V.
  destruct (Ent e row I Ir V) as (sub & vt & fi & pos & E1 & C1 & W1 & H1 & B1).
  destruct (open_one i n (ename e) sub vt size fi pos W1 Pn An H1) as (o & Eo & Ho').
  exists o, n, vt, fi, pos. split; [rewrite E1; exact Eo|]. auto.
Qed.
