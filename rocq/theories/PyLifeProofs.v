(** * Proofs about the lifetimes of Python objects *)
From Verif Require Import CBase CBaseFacts SearchSpec KeyTableModel PropKeyTable CppKeyModel PropCppKey PyArrayModel PyLifeModel PyLifeSpec.

Lemma replace_length {A} (l : list A) i x : length (replace l i x) = length l.
Proof. revert i; induction l as [|y l IH]; intros [|i]; cbn; auto. Qed.
Lemma nth_replace_eq {A} (l : list A) i x : i < length l -> nth_error (replace l i x) i = Some x.
Proof. revert i; induction l as [|y l IH]; intros [|i] L; cbn in *; auto; try lia. apply IH. lia. Qed.
Lemma nth_replace_neq {A} (l : list A) i j x : i <> j -> nth_error (replace l i x) j = nth_error l j.
Proof. revert i j; induction l as [|y l IH]; intros [|i] [|j] L; cbn in *; auto; lia. Qed.
Lemma aset_replace {A} (l : list A) i x : i < length l -> aset l i x = OK (replace l i x).
Proof. revert i; induction l as [|y l IH]; intros [|i] L; cbn in *; auto; try lia. rewrite IH by lia. reflexivity. Qed.
Lemma nth_some_lt {A} (l : list A) i x : nth_error l i = Some x -> i < length l.
Proof. intros H. apply nth_error_Some. congruence. Qed.
Lemma nth_app_l {A} (l m : list A) i x : nth_error l i = Some x -> nth_error (l ++ m) i = Some x.
Proof. intros H. rewrite nth_error_app1; [exact H|eapply nth_some_lt; eauto]. Qed.
Lemma nth_snoc_cases {A} (l : list A) x i y : nth_error (l ++ [x]) i = Some y -> (i < length l /\ nth_error l i = Some y) \/ (i = length l /\ y = x).
Proof.
  intros H. destruct (Nat.lt_ge_cases i (length l)) as [L|L]; [rewrite nth_error_app1 in H by exact L; auto|].
  rewrite nth_error_app2 in H by exact L. destruct (i - length l) as [|n] eqn:E; [|destruct n; discriminate]. injection H as ->. right. split; [lia|reflexivity].
Qed.

(** The keywords of object [o], whose block is [b]. *)
Definition table (s : pstate) (v : list pvalue) (o b : nat) (l : list keyword) : Prop :=
  nth_error v o = Some (VKeywords l) /\ nth_error (ps_objs s) o = Some (Some (PKeywords b)).
Definition elements (s : pstate) (v : list pvalue) (o b : nat) (l : list Z) : Prop :=
  nth_error v o = Some (VArray l) /\ nth_error (ps_objs s) o = Some (Some (PArray b)).

Definition prep (s : pstate) (v : list pvalue) (ob : option pobject) (x : pvalue) : Prop :=
  match x with
  | VGone => ob = None
  | VKeywords l => exists b, ob = Some (PKeywords b) /\ nth_error (ps_heap s) b = Some (Some (BKeywords l))
  | VArray l => exists b, ob = Some (PArray b) /\ nth_error (ps_heap s) b = Some (Some (BArray l))
  | VSlice o run => o < length v /\ exists b n, ob = Some (PSlice b (n, length run)) /\
      (alive v o -> exists pre post, table s v o b (pre ++ run ++ post) /\ n = length pre)
  | VKeyword o k => o < length v /\ exists b i, ob = Some (PKeyword b i) /\
      (alive v o -> exists l, table s v o b l /\ nth_error l i = Some k)
  | VCard o t => o < length v /\ exists b i c, ob = Some (PCard b i c) /\
      (alive v o -> exists l k, table s v o b l /\ nth_error l i = Some k /\ nth_error (kw_cards k) c = Some t)
  | VElement o z => o < length v /\ exists b i, ob = Some (PElement b i) /\
      (alive v o -> exists l, elements s v o b l /\ nth_error l i = Some z)
  end.
Definition owned (ob : option pobject) (b : nat) : Prop := ob = Some (PKeywords b) \/ ob = Some (PArray b).
Definition pinv (s : pstate) (v : list pvalue) : Prop :=
  length (ps_objs s) = length v /\
  (forall j ob x, nth_error (ps_objs s) j = Some ob -> nth_error v j = Some x -> prep s v ob x) /\
  (forall i j oi oj b, nth_error (ps_objs s) i = Some oi -> nth_error (ps_objs s) j = Some oj -> owned oi b -> owned oj b -> i = j).

Lemma pinv_obj s v j x : pinv s v -> nth_error v j = Some x -> exists ob, nth_error (ps_objs s) j = Some ob /\ prep s v ob x /\
  pobj s j = match ob with Some o => OK o | None => UB end.
Proof.
  intros (L & R & _) N. destruct (nth_error (ps_objs s) j) as [ob|] eqn:E; [|apply nth_error_None in E; apply nth_some_lt in N; lia].
  exists ob. split; [reflexivity|]. split; [exact (R j ob x E N)|]. unfold pobj. rewrite (proj2 (aget_OK _ _ _) E). reflexivity.
Qed.
Lemma owned_lt s v j ob b : pinv s v -> nth_error (ps_objs s) j = Some ob -> owned ob b -> b < length (ps_heap s).
Proof.
  intros (L & R & _) N O. destruct (nth_error v j) as [x|] eqn:E; [|apply nth_error_None in E; apply nth_some_lt in N; lia]. pose proof (R j ob x N E) as P.
  destruct O as [-> | ->]; destruct x; cbn in P; try discriminate; repeat match goal with H : _ /\ _ |- _ => destruct H | H : exists _, _ |- _ => destruct H end; try discriminate.
  - match goal with H : Some _ = Some _ |- _ => injection H as <- end. eapply nth_some_lt; eauto.
  - match goal with H : Some _ = Some _ |- _ => injection H as <- end. eapply nth_some_lt; eauto.
Qed.

Lemma alive_snoc v x o : o < length v -> alive (v ++ [x]) o -> alive v o.
Proof. intros L. unfold alive. rewrite nth_error_app1 by exact L. auto. Qed.

(** Adding an object (and a block). *)
Lemma prep_ext s v h ob' x' ob x : prep s v ob x ->
  prep {| ps_heap := ps_heap s ++ h; ps_objs := ps_objs s ++ [ob'] |} (v ++ [x']) ob x.
Proof.
  intros P. destruct x; cbn in *; auto.
  - destruct P as (b & -> & H). exists b. split; [reflexivity|]. apply nth_app_l. exact H.
  - destruct P as (Lo & b & n & -> & H). rewrite app_length. split; [lia|]. exists b, n. split; [reflexivity|]. intros A. apply alive_snoc in A; [|exact Lo].
    destruct (H A) as (pre & post & (T1 & T2) & E). exists pre, post. split; [split; apply nth_app_l; assumption|exact E].
  - destruct P as (Lo & b & n & -> & H). rewrite app_length. split; [lia|]. exists b, n. split; [reflexivity|]. intros A. apply alive_snoc in A; [|exact Lo].
    destruct (H A) as (l & (T1 & T2) & E). exists l. split; [split; apply nth_app_l; assumption|exact E].
  - destruct P as (Lo & b & n & c & -> & H). rewrite app_length. split; [lia|]. exists b, n, c. split; [reflexivity|]. intros A. apply alive_snoc in A; [|exact Lo].
    destruct (H A) as (l & k & (T1 & T2) & E). exists l, k. split; [split; apply nth_app_l; assumption|exact E].
  - destruct P as (b & -> & H). exists b. split; [reflexivity|]. apply nth_app_l. exact H.
  - destruct P as (Lo & b & n & -> & H). rewrite app_length. split; [lia|]. exists b, n. split; [reflexivity|]. intros A. apply alive_snoc in A; [|exact Lo].
    destruct (H A) as (l & (T1 & T2) & E). exists l. split; [split; apply nth_app_l; assumption|exact E].
Qed.
Lemma pinv_add s v h ob x : pinv s v -> prep {| ps_heap := ps_heap s ++ h; ps_objs := ps_objs s ++ [ob] |} (v ++ [x]) ob x ->
  (forall b, owned ob b -> length (ps_heap s) <= b) -> pinv {| ps_heap := ps_heap s ++ h; ps_objs := ps_objs s ++ [ob] |} (v ++ [x]).
Proof.
  intros I P F. pose proof I as (L & R & U). split; [cbn [ps_objs]; rewrite !app_length; cbn; lia|]. split; cbn [ps_objs].
  - intros j o y No Ny. destruct (nth_snoc_cases _ _ _ _ No) as [(L1 & N1)|(-> & ->)].
    + rewrite nth_error_app1 in Ny by lia. apply prep_ext. exact (R j o y N1 Ny).
    + destruct (nth_snoc_cases _ _ _ _ Ny) as [(L2 & N2)|(_ & ->)]; [lia|exact P].
  - intros i j oi oj b Ni Nj Oi Oj. destruct (nth_snoc_cases _ _ _ _ Ni) as [(L1 & N1)|(-> & ->)], (nth_snoc_cases _ _ _ _ Nj) as [(L2 & N2)|(-> & ->)]; [eauto| | |reflexivity].
    + pose proof (owned_lt s v i oi b I N1 Oi). specialize (F b Oj). lia.
    + pose proof (owned_lt s v j oj b I N2 Oj). specialize (F b Oi). lia.
Qed.
Lemma pinv_view s v ob x : pinv s v -> prep (padd s ob) (v ++ [x]) (Some ob) x -> (forall b, ~ owned (Some ob) b) -> pinv (padd s ob) (v ++ [x]).
Proof.
  intros I P F. unfold padd in *. rewrite <- (app_nil_r (ps_heap s)) in *. apply (pinv_add {| ps_heap := ps_heap s; ps_objs := ps_objs s |} v [] (Some ob) x); cbn [ps_heap ps_objs] in *.
  - rewrite app_nil_r in *. destruct s. exact I.
  - rewrite app_nil_r in *. exact P.
  - intros b O. destruct (F b O).
Qed.

Lemma alive_table s v o b l : pinv s v -> table s v o b l -> pkeywords s b = OK l.
Proof.
  intros (_ & R & _) (T1 & T2). destruct (R o _ _ T2 T1) as (b' & [= <-] & H). unfold pkeywords. rewrite (proj2 (aget_OK _ _ _) H). reflexivity.
Qed.
Lemma alive_elements s v o b l : pinv s v -> elements s v o b l -> parray s b = OK l.
Proof.
  intros (_ & R & _) (T1 & T2). destruct (R o _ _ T2 T1) as (b' & [= <-] & H). unfold parray. rewrite (proj2 (aget_OK _ _ _) H). reflexivity.
Qed.
Lemma alive_VK v o l : nth_error v o = Some (VKeywords l) -> alive v o.
Proof. intros H. unfold alive. rewrite H. exact I. Qed.

(** Dropping an object. *)
Lemma pinv_drop s v j x ob : pinv s v -> nth_error v j = Some x -> nth_error (ps_objs s) j = Some ob -> forall h,
  (forall b, ~ owned ob b -> nth_error h b = nth_error (ps_heap s) b) ->
  pinv {| ps_heap := h; ps_objs := replace (ps_objs s) j None |} (replace v j VGone).
Proof.
  intros (L & R & U) Nx No h Hh. split; [cbn [ps_objs]; rewrite !replace_length; exact L|]. split; cbn [ps_objs].
  - intros i o y Ni Ny. destruct (Nat.eq_dec j i) as [<-|N].
    { rewrite nth_replace_eq in Ni by (eapply nth_some_lt; eauto). rewrite nth_replace_eq in Ny by (eapply nth_some_lt; eauto). injection Ni as <-. injection Ny as <-. reflexivity. }
    rewrite nth_replace_neq in Ni by exact N. rewrite nth_replace_neq in Ny by exact N. pose proof (R i o y Ni Ny) as P.
    assert (Hp : forall b c, nth_error (ps_heap s) b = Some (Some c) -> owned o b -> nth_error h b = Some (Some c)).
    { intros b c Q O. rewrite Hh; [exact Q|]. intros Oj. apply N. symmetry. exact (U i j o ob b Ni No O Oj). }
    assert (Al : forall o', alive (replace v j VGone) o' -> o' <> j /\ alive v o').
    { intros o' A. unfold alive in A. destruct (Nat.eq_dec j o') as [<-|N']; [|split; [congruence|]; unfold alive; rewrite nth_replace_neq in A by exact N'; exact A].
      rewrite nth_replace_eq in A by (eapply nth_some_lt; eauto). contradiction. }
    destruct y; cbn in *; auto.
    + destruct P as (b & -> & H). exists b. split; [reflexivity|]. apply Hp; [exact H|left; reflexivity].
    + destruct P as (Lo & b & n & -> & H). rewrite replace_length. split; [exact Lo|]. exists b, n. split; [reflexivity|]. intros A. destruct (Al _ A) as (Nj & A').
      destruct (H A') as (pre & post & (T1 & T2) & E). exists pre, post. split; [split; cbn [ps_objs]; rewrite nth_replace_neq by auto; assumption|exact E].
    + destruct P as (Lo & b & n & -> & H). rewrite replace_length. split; [exact Lo|]. exists b, n. split; [reflexivity|]. intros A. destruct (Al _ A) as (Nj & A').
      destruct (H A') as (l & (T1 & T2) & E). exists l. split; [split; cbn [ps_objs]; rewrite nth_replace_neq by auto; assumption|exact E].
    + destruct P as (Lo & b & n & c & -> & H). rewrite replace_length. split; [exact Lo|]. exists b, n, c. split; [reflexivity|]. intros A. destruct (Al _ A) as (Nj & A').
      destruct (H A') as (l & k & (T1 & T2) & E). exists l, k. split; [split; cbn [ps_objs]; rewrite nth_replace_neq by auto; assumption|exact E].
    + destruct P as (b & -> & H). exists b. split; [reflexivity|]. apply Hp; [exact H|right; reflexivity].
    + destruct P as (Lo & b & n & -> & H). rewrite replace_length. split; [exact Lo|]. exists b, n. split; [reflexivity|]. intros A. destruct (Al _ A) as (Nj & A').
      destruct (H A') as (l & (T1 & T2) & E). exists l. split; [split; cbn [ps_objs]; rewrite nth_replace_neq by auto; assumption|exact E].
  - intros i k oi ok b Ni Nk Oi Ok. destruct (Nat.eq_dec j i) as [<-|N1]; [rewrite nth_replace_eq in Ni by (eapply nth_some_lt; eauto); injection Ni as <-; destruct Oi; discriminate|].
    destruct (Nat.eq_dec j k) as [<-|N2]; [rewrite nth_replace_eq in Nk by (eapply nth_some_lt; eauto); injection Nk as <-; destruct Ok; discriminate|].
    rewrite nth_replace_neq in Ni by exact N1. rewrite nth_replace_neq in Nk by exact N2. eauto.
Qed.

Lemma range_test n i : (n =? 0) || (n - 1 <? i) = negb (i <? n).
Proof. destruct (Nat.eqb_spec n 0), (Nat.ltb_spec (n - 1) i), (Nat.ltb_spec i n); cbn; lia || reflexivity. Qed.

Lemma array_at_nth {E} (a : list E) i : array_at a i = match nth_error a i with Some x => Gives x | None => Raises RuntimeError end.
Proof. reflexivity. Qed.

Lemma pstep_ok s v o r v' : pinv s v -> vstep v o r v' -> exists s', pstep s o = OK (s', r) /\ pinv s' v'.
Proof.
  intros I St. pose proof I as (L & R & U).
  destruct St as [l|l|j l name run Nj So Cn Nm|j o run i k Nj Ni|j o run i Nj Ni|j o k i t Nj A Ni|j o k i Nj A Ni|j l i z Nj Ni|j l i Nj Ni|j o t Nj A|j o k Nj A|j o z Nj A|j x Nj Nx]; cbn [pstep].
  - eexists. split; [reflexivity|]. apply pinv_add; [exact I| |].
    + cbn. exists (length (ps_heap s)). split; [reflexivity|]. rewrite nth_error_app2, Nat.sub_diag by lia. reflexivity.
    + intros b [[= <-]|Q]; [lia|discriminate].
  - eexists. split; [reflexivity|]. apply pinv_add; [exact I| |].
    + cbn. exists (length (ps_heap s)). split; [reflexivity|]. rewrite nth_error_app2, Nat.sub_diag by lia. reflexivity.
    + intros b [Q|[= <-]]; [discriminate|lia].
  - destruct (pinv_obj s v j _ I Nj) as (ob & No & P & ->). cbn in P. destruct P as (b & -> & H). cbn [bind].
    assert (T : table s v j b l) by (split; assumption). rewrite (alive_table s v j b l I T). cbn [bind].
    destruct Nm as (pre & post & -> & Np & Nr & Ne & Pr).
    assert (K : keywords_at (pre ++ run ++ post) name = OK (Returns (length pre, length run))).
    { unfold keywords_at. rewrite (CppCardProofs.c_str_id name Cn). rewrite !map_app in *.
      rewrite (C13_slice_partial (map kw_name pre) (map kw_name run) (map kw_name post) name So).
      - cbn [bind]. rewrite !map_length. reflexivity.
      - intros Q. apply in_map_iff in Q as (k & E & Q). exact (Np k (or_introl Q) E).
      - apply Forall_forall. intros x Q. apply in_map_iff in Q as (k & <- & Q). exact (Nr k Q).
      - intros Q. apply in_map_iff in Q as (k & E & Q). exact (Np k (or_intror Q) E).
      - destruct run; [congruence|discriminate].
      - destruct Pr as [Pr|Pr]; [left; destruct pre; [congruence|discriminate]|right; rewrite map_length; exact Pr]. }
    rewrite K. cbn [bind]. eexists. split; [reflexivity|]. apply pinv_view; [exact I| |intros b' [Q|Q]; discriminate].
    cbn [prep]. rewrite app_length. split; [apply nth_some_lt in Nj; lia|]. exists b, (length pre). split; [reflexivity|].
    intros _. exists pre, post. split; [split; apply nth_app_l; assumption|reflexivity].
  - destruct (pinv_obj s v j _ I Nj) as (ob & No & P & ->). destruct P as (Lo & b & n & -> & H). cbn [bind fst snd]. rewrite range_test.
    rewrite (proj2 (Nat.ltb_lt i (length run)) (nth_some_lt _ _ _ Ni)). cbn [negb]. eexists. split; [reflexivity|].
    apply pinv_view; [exact I| |intros b' [Q|Q]; discriminate]. cbn [prep]. rewrite app_length. split; [lia|]. exists b, (n + i). split; [reflexivity|].
    intros A. destruct (H (alive_snoc _ _ _ Lo A)) as (pre & post & (T1 & T2) & ->). exists (pre ++ run ++ post). split; [split; apply nth_app_l; assumption|].
    rewrite nth_error_app2 by lia. replace (length pre + i - length pre) with i by lia. apply nth_app_l. exact Ni.
  - destruct (pinv_obj s v j _ I Nj) as (ob & No & P & ->). destruct P as (Lo & b & n & -> & H). cbn [bind fst snd]. rewrite range_test.
    rewrite (proj2 (Nat.ltb_ge i (length run)) (proj1 (nth_error_None _ _) Ni)). cbn [negb]. exists s. auto.
  - destruct (pinv_obj s v j _ I Nj) as (ob & No & P & ->). destruct P as (Lo & b & n & -> & H). cbn [bind]. destruct (H A) as (l & T & Nl). unfold pkeyword.
    rewrite (alive_table _ _ _ _ _ I T). cbn [bind]. rewrite (proj2 (aget_OK _ _ _) Nl). cbn [bind]. rewrite range_test.
    rewrite (proj2 (Nat.ltb_lt i _) (nth_some_lt _ _ _ Ni)). cbn [negb]. eexists. split; [reflexivity|].
    apply pinv_view; [exact I| |intros b' [Q|Q]; discriminate]. cbn [prep]. rewrite app_length. split; [lia|]. exists b, n, i. split; [reflexivity|].
    intros _. destruct T as (T1 & T2). exists l, k. split; [split; apply nth_app_l; assumption|auto].
  - destruct (pinv_obj s v j _ I Nj) as (ob & No & P & ->). destruct P as (Lo & b & n & -> & H). cbn [bind]. destruct (H A) as (l & T & Nl). unfold pkeyword.
    rewrite (alive_table _ _ _ _ _ I T). cbn [bind]. rewrite (proj2 (aget_OK _ _ _) Nl). cbn [bind]. rewrite range_test.
    rewrite (proj2 (Nat.ltb_ge i _) (proj1 (nth_error_None _ _) Ni)). cbn [negb]. exists s. auto.
  - destruct (pinv_obj s v j _ I Nj) as (ob & No & P & ->). destruct P as (b & -> & H). cbn [bind]. assert (T : elements s v j b l) by (split; assumption).
    rewrite (alive_elements _ _ _ _ _ I T). cbn [bind]. unfold array_getitem. rewrite (array_at_nth l i). rewrite Ni. eexists. split; [reflexivity|].
    apply pinv_view; [exact I| |intros b' [Q|Q]; discriminate]. cbn [prep]. rewrite app_length. split; [apply nth_some_lt in Nj; lia|]. exists b, i. split; [reflexivity|].
    intros _. exists l. split; [split; apply nth_app_l; assumption|exact Ni].
  - destruct (pinv_obj s v j _ I Nj) as (ob & No & P & ->). destruct P as (b & -> & H). cbn [bind]. assert (T : elements s v j b l) by (split; assumption).
    rewrite (alive_elements _ _ _ _ _ I T). cbn [bind]. unfold array_getitem. rewrite (array_at_nth l i). rewrite Ni. exists s. auto.
  - destruct (pinv_obj s v j _ I Nj) as (ob & No & P & ->). destruct P as (Lo & b & n & c & -> & H). cbn [bind]. destruct (H A) as (l & k & T & Nl & Nc). unfold pkeyword.
    rewrite (alive_table _ _ _ _ _ I T). cbn [bind]. rewrite (proj2 (aget_OK _ _ _) Nl). cbn [bind]. rewrite (proj2 (aget_OK _ _ _) Nc). exists s. auto.
  - destruct (pinv_obj s v j _ I Nj) as (ob & No & P & ->). destruct P as (Lo & b & n & -> & H). cbn [bind]. destruct (H A) as (l & T & Nl). unfold pkeyword.
    rewrite (alive_table _ _ _ _ _ I T). cbn [bind]. rewrite (proj2 (aget_OK _ _ _) Nl). exists s. auto.
  - destruct (pinv_obj s v j _ I Nj) as (ob & No & P & ->). destruct P as (Lo & b & n & -> & H). cbn [bind]. destruct (H A) as (l & T & Nl).
    rewrite (alive_elements _ _ _ _ _ I T). cbn [bind]. rewrite (proj2 (aget_OK _ _ _) Nl). exists s. auto.
  - destruct (pinv_obj s v j _ I Nj) as (ob & No & P & ->). pose proof (nth_some_lt _ _ _ No) as Lj.
    assert (Vw : forall p, ob = Some p -> (forall b, ~ owned ob b) -> exists s', (do s <- OK s; do os <- aset (ps_objs s) j None; OK ({| ps_heap := ps_heap s; ps_objs := os |}, SNone)) = OK (s', SNone) /\ pinv s' (replace v j VGone)).
    { intros p -> N. cbn [bind]. rewrite aset_replace by exact Lj. cbn [bind]. eexists. split; [reflexivity|]. apply (pinv_drop s v j x (Some p) I Nj No). reflexivity. }
    assert (Ow : forall b c, owned ob b -> nth_error (ps_heap s) b = Some (Some c) -> exists s', (do s <- pfree s b; do os <- aset (ps_objs s) j None; OK ({| ps_heap := ps_heap s; ps_objs := os |}, SNone)) = OK (s', SNone) /\ pinv s' (replace v j VGone)).
    { intros b c O Hb. unfold pfree. rewrite (proj2 (aget_OK _ _ _) Hb). cbn [bind]. rewrite aset_replace by (eapply nth_some_lt; eauto). cbn [bind ps_objs ps_heap]. rewrite aset_replace by exact Lj. cbn [bind].
      eexists. split; [reflexivity|]. apply (pinv_drop s v j x ob I Nj No). intros b' N. apply nth_replace_neq. intros ->. exact (N O). }
    destruct x; [congruence|..]; cbn [prep] in P.
    + destruct P as (b & -> & H). cbn [bind]. eapply Ow; [left; reflexivity|exact H].
    + destruct P as (_ & b & n & -> & _). cbn [bind]. eapply Vw; [reflexivity|intros ? [Q|Q]; discriminate].
    + destruct P as (_ & b & n & -> & _). cbn [bind]. eapply Vw; [reflexivity|intros ? [Q|Q]; discriminate].
    + destruct P as (_ & b & n & c & -> & _). cbn [bind]. eapply Vw; [reflexivity|intros ? [Q|Q]; discriminate].
    + destruct P as (b & -> & H). cbn [bind]. eapply Ow; [right; reflexivity|exact H].
    + destruct P as (_ & b & n & -> & _). cbn [bind]. eapply Vw; [reflexivity|intros ? [Q|Q]; discriminate].
Qed.

Lemma prun_ok v prog rs v' : vruns v prog rs v' -> forall s, pinv s v -> prun s prog = OK rs.
Proof.
  induction 1 as [v|v o r v1 t rs v2 St _ IH]; intros s I; [reflexivity|]. cbn [prun]. destruct (pstep_ok s v o r v1 I St) as (s' & -> & I'). cbn [bind].
  rewrite (IH s' I'). reflexivity.
Qed.
Lemma pinv_start : pinv pstart [].
Proof. split; [reflexivity|]. split; intros j; intros; destruct j; discriminate. Qed.

Lemma prun_split v prog rs v' : vruns v prog rs v' -> forall s, pinv s v -> exists s', pinv s' v' /\ forall tl, prun s (prog ++ tl) = (do rs' <- prun s' tl; OK (rs ++ rs')).
Proof.
  induction 1 as [v|v o r v1 t rs v2 St _ IH]; intros s I.
  - exists s. split; [exact I|]. intros tl. cbn [app]. destruct (prun s tl); reflexivity.
  - destruct (pstep_ok s v o r v1 I St) as (s1 & E & I1). destruct (IH s1 I1) as (s2 & I2 & H). exists s2. split; [exact I2|].
    intros tl. cbn [prun app]. rewrite E. cbn [bind]. rewrite H. destruct (prun s2 tl); reflexivity.
Qed.
