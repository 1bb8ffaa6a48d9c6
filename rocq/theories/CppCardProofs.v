(** * Proofs about card objects and keyword slices *)
From Verif Require Import CBase CBaseFacts CardModel SearchSpec KeyTableModel KeyTableSpec CppKeyModel CppKeySpec CppArrayProofs PropKeyTable.

Lemma put_length {A} (l : list A) i x : length (put l i x) = length l.
Proof. revert i; induction l as [|y l IH]; intros [|i]; cbn [put length]; auto. Qed.
Lemma nth_put_eq {A} (l : list A) i x : i < length l -> nth_error (put l i x) i = Some x.
Proof. revert i; induction l as [|y l IH]; intros [|i] L; cbn [put length nth_error] in *; auto; try lia. apply IH. lia. Qed.
Lemma nth_put_neq {A} (l : list A) i j x : i <> j -> nth_error (put l i x) j = nth_error l j.
Proof. revert i j; induction l as [|y l IH]; intros [|i] [|j] L; cbn [put nth_error] in *; auto; lia. Qed.
Lemma aset_put {A} (l : list A) i x : i < length l -> aset l i x = OK (put l i x).
Proof. revert i; induction l as [|y l IH]; intros [|i] L; cbn [put length aset] in *; auto; try lia. rewrite IH by lia. reflexivity. Qed.
Lemma put_same {A} (l : list A) i x : nth_error l i = Some x -> put l i x = l.
Proof. revert i; induction l as [|y l IH]; intros [|i] Q; cbn [put nth_error] in *; try discriminate; [congruence|f_equal; auto]. Qed.

(** ** Cards *)
Definition crep (n : nat) (h : list (option card)) (o : option cobj) (c : ccard) : Prop :=
  match c with
  | CGone => o = None
  | CMoved => o = Some cmoved
  | CView k => k < n /\ o = Some {| co_handle := Some k; co_del := false |}
  | COwn x => exists b, n <= b /\ o = Some {| co_handle := Some b; co_del := true |} /\ nth_error h b = Some (Some x)
  end.
Definition cowns (o : option cobj) (b : nat) : Prop := o = Some {| co_handle := Some b; co_del := true |}.
Definition cinv (s : cmach) (file : list card) (v : list ccard) : Prop :=
  length (cm_objs s) = length v /\ length file <= length (cm_heap s) /\
  (forall k x, nth_error file k = Some x -> nth_error (cm_heap s) k = Some (Some x)) /\
  (forall j o c, nth_error (cm_objs s) j = Some o -> nth_error v j = Some c -> crep (length file) (cm_heap s) o c) /\
  (forall i j o p b, i <> j -> nth_error (cm_objs s) i = Some o -> nth_error (cm_objs s) j = Some p -> cowns o b -> cowns p b -> False).
Definition ccovered (n : nat) (s : cmach) : Prop :=
  forall b x, n <= b -> nth_error (cm_heap s) b = Some (Some x) -> exists j o, nth_error (cm_objs s) j = Some o /\ cowns o b.

Lemma cowns_rep n h o c b : crep n h o c -> cowns o b -> n <= b /\ exists x, c = COwn x /\ nth_error h b = Some (Some x).
Proof.
  intros R O. unfold cowns in O. subst o. destruct c as [| |k|x]; cbn in R; [discriminate|discriminate|destruct R as (_ & R); discriminate|].
  destruct R as (b' & L & [= <-] & Q). eauto.
Qed.
Lemma cinv_obj s file v j c : cinv s file v -> present v j c -> exists a, nth_error (cm_objs s) j = Some (Some a) /\ crep (length file) (cm_heap s) (Some a) c /\ cobj_at s j = OK a.
Proof.
  intros (L & _ & _ & R & _) (N & G). pose proof (nth_lt _ _ _ N) as Lt. destruct (nth_error (cm_objs s) j) as [o|] eqn:Q; [|apply nth_error_None in Q; lia].
  pose proof (R _ _ _ Q N) as R'. unfold cobj_at. rewrite (proj2 (aget_OK _ _ _) Q). cbn [bind].
  destruct c as [| |k|x]; [congruence| | |]; cbn in R'.
  - subst o. eexists. split; [reflexivity|]. split; reflexivity.
  - destruct R' as (Lk & ->). eexists. split; [reflexivity|]. split; [split; auto|reflexivity].
  - destruct R' as (b & Lb & -> & Nb). eexists. split; [reflexivity|]. split; [exists b; auto|reflexivity].
Qed.
Lemma cderef s file v a c x : cinv s file v -> crep (length file) (cm_heap s) (Some a) c -> card_of file c x ->
  exists b, co_handle a = Some b /\ deref s a = OK (b, x) /\ nth_error (cm_heap s) b = Some (Some x) /\
    match c with CView k => b = k /\ k < length file | COwn _ => length file <= b /\ co_del a = true | _ => False end.
Proof.
  intros (_ & _ & F & _ & _) R C. destruct c as [| |k|y]; cbn in R, C; try contradiction.
  - destruct R as (L & [= ->]). exists k. pose proof (F k x C) as Q. unfold deref. cbn [co_handle]. rewrite (proj2 (aget_OK _ _ _) Q). cbn [bind]. auto.
  - subst y. destruct R as (b & L & [= ->] & Q). exists b. unfold deref. cbn [co_handle co_del]. rewrite (proj2 (aget_OK _ _ _) Q). cbn [bind]. auto.
Qed.

Lemma crep_ext n h x o c : crep n h o c -> crep n (h ++ [x]) o c.
Proof. destruct c as [| |k|y]; cbn; auto. intros (b & L & -> & N). exists b. split; [exact L|]. split; [reflexivity|]. rewrite nth_error_app1; [assumption|eapply nth_lt; eauto]. Qed.
Lemma crep_upd n h b x o c : crep n h o c -> ~ cowns o b -> crep n (put h b x) o c.
Proof.
  destruct c as [| |k|y]; cbn; auto. intros (b' & L & -> & N) NO. exists b'. split; [exact L|]. split; [reflexivity|]. rewrite nth_put_neq; [assumption|].
  intros ->. apply NO. reflexivity.
Qed.
Lemma cfresh s file v j o : cinv s file v -> nth_error (cm_objs s) j = Some o -> ~ cowns o (length (cm_heap s)).
Proof.
  intros (L & _ & _ & R & _) Q O. pose proof (nth_lt _ _ _ Q). destruct (nth_error v j) as [c|] eqn:N; [|apply nth_error_None in N; lia].
  destruct (cowns_rep _ _ _ _ _ (R _ _ _ Q N) O) as (_ & x & _ & Nx). apply nth_lt in Nx. lia.
Qed.

Lemma cinv_add s file v h a c : cinv s file v -> (forall o d, crep (length file) (cm_heap s) o d -> crep (length file) h o d) ->
  length file <= length h -> (forall k x, nth_error file k = Some x -> nth_error h k = Some (Some x)) -> crep (length file) h (Some a) c ->
  (forall b j o, cowns (Some a) b -> nth_error (cm_objs s) j = Some o -> ~ cowns o b) ->
  cinv {| cm_heap := h; cm_objs := cm_objs s ++ [Some a] |} file (v ++ [c]).
Proof.
  intros (L & _ & _ & R & D) E Lh Fh Ra Fr. split; [|split; [|split; [|split]]]; cbn [cm_heap cm_objs]; auto.
  - rewrite !app_length, L. reflexivity.
  - intros j o x Qo Qx. destruct (nth_snoc _ _ _ _ Qo) as [[L1 Q1]|[-> ->]].
    + rewrite nth_error_app1 in Qx by lia. eapply E, R; eauto.
    + rewrite L in Qx. rewrite nth_error_app2, Nat.sub_diag in Qx by lia. injection Qx as <-. assumption.
  - intros i j o p b N Qo Qp Oo Op.
    destruct (nth_snoc _ _ _ _ Qo) as [[L1 Q1]|[-> ->]], (nth_snoc _ _ _ _ Qp) as [[L2 Q2]|[-> ->]]; [eauto| | |lia].
    + exact (Fr b i o Op Q1 Oo).
    + exact (Fr b j p Oo Q2 Op).
Qed.

Lemma cinv_set s file v h j o c : cinv s file v -> j < length v ->
  (forall i p d, i <> j -> nth_error (cm_objs s) i = Some p -> crep (length file) (cm_heap s) p d -> crep (length file) h p d) ->
  length file <= length h -> (forall k x, nth_error file k = Some x -> nth_error h k = Some (Some x)) -> crep (length file) h o c ->
  (forall b i p, i <> j -> cowns o b -> nth_error (cm_objs s) i = Some p -> ~ cowns p b) ->
  cinv {| cm_heap := h; cm_objs := put (cm_objs s) j o |} file (put v j c).
Proof.
  intros (L & _ & _ & R & D) Lj E Lh Fh Ro Fr. split; [|split; [|split; [|split]]]; cbn [cm_heap cm_objs]; auto.
  - rewrite !put_length. exact L.
  - intros i p x Qo Qx. destruct (Nat.eq_dec i j) as [->|N].
    + rewrite nth_put_eq in Qo by lia. rewrite nth_put_eq in Qx by lia. congruence.
    + rewrite nth_put_neq in Qo by auto. rewrite nth_put_neq in Qx by auto. eapply E; eauto.
  - intros i k p q b N Qo Qp Oo Op.
    destruct (Nat.eq_dec i j) as [->|Ni], (Nat.eq_dec k j) as [->|Nk]; [lia| | |].
    + rewrite nth_put_eq in Qo by lia. injection Qo as <-. rewrite nth_put_neq in Qp by auto. exact (Fr b k q Nk Oo Qp Op).
    + rewrite nth_put_eq in Qp by lia. injection Qp as <-. rewrite nth_put_neq in Qo by auto. exact (Fr b i p Ni Op Qo Oo).
    + rewrite nth_put_neq in Qo by auto. rewrite nth_put_neq in Qp by auto. exact (D i k p q b N Qo Qp Oo Op).
Qed.

(** Writing through a handle. *)
Lemma cstore s file v j a c x y file' v' : cinv s file v -> present v j c -> nth_error (cm_objs s) j = Some (Some a) ->
  crep (length file) (cm_heap s) (Some a) c -> card_of file c x -> store file v j c y = (file', v') ->
  exists b s', deref s a = OK (b, x) /\ cput s b (Some y) = OK s' /\ cinv s' file' v' /\ length file' = length file /\
    (ccovered (length file) s -> ccovered (length file) s').
Proof.
  intros I P Qa Ra C St. destruct (cderef s file v a c x I Ra C) as (b & Hb & De & Nb & B). exists b. unfold cput.
  pose proof (nth_lt _ _ _ Nb) as Lb. rewrite (aset_put _ _ (Some y) Lb). cbn [bind]. eexists. split; [exact De|]. split; [reflexivity|].
  destruct I as (L & Lh & F & R & D). destruct c as [| |k|z]; try contradiction; cbn [store] in St; injection St as <- <-.
  - destruct B as (-> & Lk). split; [|split; [apply put_length|]].
    + split; [exact L|]. split; [cbn [cm_heap]; rewrite !put_length; exact Lh|]. split; [|split; [|exact D]]; cbn [cm_heap cm_objs].
      * intros i q Q. destruct (Nat.eq_dec k i) as [<-|N].
        -- rewrite nth_put_eq in Q by exact Lk. injection Q as <-. apply nth_put_eq. exact Lb.
        -- rewrite nth_put_neq in Q by exact N. rewrite nth_put_neq by exact N. apply F. exact Q.
      * intros i o d Qo Qd. rewrite put_length. pose proof (R _ _ _ Qo Qd) as Ro. apply crep_upd; [exact Ro|]. intros O.
        destruct (cowns_rep _ _ _ _ _ Ro O) as (Lk' & _). lia.
    + intros Cv b' x' Lb' Q. cbn [cm_heap cm_objs] in *. rewrite nth_put_neq in Q by lia. exact (Cv b' x' Lb' Q).
  - destruct B as (Lb' & Hd). assert (Oa : cowns (Some a) b) by (unfold cowns; destruct a as [ha da]; cbn in Hb, Hd; subst; reflexivity).
    split; [|split; [reflexivity|]].
    + rewrite <- (put_same (cm_objs s) j (Some a) Qa). destruct P as (Nj & _). apply (cinv_set s file v (put (cm_heap s) b (Some y)) j).
      * repeat split; auto.
      * apply nth_lt in Nj. exact Nj.
      * intros i p d Ni Qp Rp. apply crep_upd; [exact Rp|]. intros O. exact (D i j p (Some a) b Ni Qp Qa O Oa).
      * rewrite put_length. exact Lh.
      * intros k q Q. rewrite nth_put_neq; [apply F; exact Q|]. apply nth_lt in Q. lia.
      * exists b. split; [exact Lb'|]. split; [exact Oa|]. apply nth_put_eq. exact Lb.
      * intros b' i p Ni O Qp Op. unfold cowns in *. rewrite Oa in O. injection O as <-. exact (D i j p (Some a) b Ni Qp Qa Op Oa).
    + intros Cv b' x' Lx Q. cbn [cm_heap cm_objs] in *. destruct (Nat.eq_dec b b') as [<-|N]; [exists j, (Some a); auto|].
      rewrite nth_put_neq in Q by exact N. exact (Cv b' x' Lx Q).
Qed.

Lemma cowns_moved b : ~ cowns (Some cmoved) b.
Proof. unfold cowns, cmoved. congruence. Qed.

Lemma cstep_ok s file v o r file' v' : cinv s file v -> cvstep file v o r file' v' -> exists s', cstep s o = OK (s', r) /\ cinv s' file' v' /\
  length file' = length file /\ (ccovered (length file) s -> ~ coverwrites v o -> ccovered (length file) s').
Proof.
  intros I St. pose proof I as (L & Lh & F & R & D).
  destruct St as [k Lk|j c x P C|j c P|i j c x d P C Pi Ne|i j c d P Pi Ne|j w c x file' v' P C S|j c x cur file' v' P C N S|j w c x cur file' v' P C N S|j q c x r P C Q|j c P]; cbn [cstep].
  - (* Of *) eexists. split; [reflexivity|]. split; [|split; [reflexivity|]].
    + apply cinv_add; auto; [split; auto|]. intros b j o O. exfalso. unfold cowns in O. congruence.
    + intros Cv _ b x Lb Q. destruct (Cv b x Lb Q) as (j & o & Qo & Oo). exists j, o. cbn [cadd cm_objs]. rewrite nth_error_app1 by (eapply nth_lt; eauto). auto.
  - (* CopyNew *)
    destruct (cinv_obj s file v j c I P) as (a & Qa & Ra & ->). cbn [bind]. unfold ccopy. destruct (cderef s file v a c x I Ra C) as (b & _ & -> & _). cbn [bind cadd cm_heap cm_objs].
    eexists. split; [reflexivity|]. split; [|split; [reflexivity|]].
    + apply (cinv_add s file v (cm_heap s ++ [Some x])); auto.
      * intros o d. apply crep_ext.
      * rewrite app_length. lia.
      * intros k y Q. rewrite nth_error_app1 by (apply nth_lt in Q; lia). auto.
      * exists (length (cm_heap s)). split; [exact Lh|]. split; [reflexivity|]. rewrite nth_error_app2, Nat.sub_diag by lia. reflexivity.
      * intros b' i o O Q. unfold cowns in O. injection O as <-. eapply cfresh; eauto.
    + intros Cv _ b' x' Lb Q. cbn [cadd cm_heap cm_objs] in *. destruct (nth_snoc _ _ _ _ Q) as [[_ Q']|[-> _]].
      * destruct (Cv b' x' Lb Q') as (i & o & Qo & Oo). exists i, o. rewrite nth_error_app1 by (eapply nth_lt; eauto). auto.
      * exists (length (cm_objs s)). eexists. split; [rewrite nth_error_app2, Nat.sub_diag by lia; reflexivity|]. reflexivity.
  - (* MoveNew *)
    destruct (cinv_obj s file v j c I P) as (a & Qa & Ra & ->). cbn [bind]. pose proof (nth_lt _ _ _ Qa) as Lj. unfold cset. rewrite (aset_put _ _ _ Lj). cbn [bind cadd cm_heap cm_objs].
    eexists. split; [reflexivity|]. split; [|split; [reflexivity|]].
    + set (s1 := {| cm_heap := cm_heap s; cm_objs := put (cm_objs s) j (Some cmoved) |}).
      assert (I1 : cinv s1 file (put v j CMoved)).
      { apply (cinv_set s file v (cm_heap s) j); auto; [lia|reflexivity|]. intros b i p _ O. exfalso. exact (cowns_moved b O). }
      apply (cinv_add s1 file (put v j CMoved) (cm_heap s) a c I1); auto.
      intros b i p O Q Op. cbn [s1 cm_objs] in Q. destruct (Nat.eq_dec i j) as [->|Nij].
      * rewrite nth_put_eq in Q by exact Lj. injection Q as <-. exact (cowns_moved b Op).
      * rewrite nth_put_neq in Q by auto. exact (D i j p (Some a) b Nij Q Qa Op O).
    + intros Cv _ b x Lb Q. cbn [cadd cm_heap cm_objs] in *. destruct (Cv b x Lb Q) as (i & p & Qp & Op). destruct (Nat.eq_dec i j) as [->|Nij].
      * rewrite Qa in Qp. injection Qp as <-. exists (length (cm_objs s)), (Some a). split; [|exact Op]. rewrite nth_error_app2 by (rewrite put_length; lia). rewrite put_length, Nat.sub_diag. reflexivity.
      * exists i, p. split; [|exact Op]. rewrite nth_error_app1 by (rewrite put_length; eapply nth_lt; eauto). rewrite nth_put_neq by auto. exact Qp.
  - (* CopyTo *)
    destruct (cinv_obj s file v j c I P) as (a & Qa & Ra & ->). destruct (cinv_obj s file v i d I Pi) as (ai & Qi & Ri & ->). cbn [bind].
    destruct (Nat.eqb_spec i j) as [|_]; [contradiction|]. unfold ccopy. destruct (cderef s file v a c x I Ra C) as (b & _ & -> & _). cbn [bind cm_heap cm_objs].
    pose proof (nth_lt _ _ _ Qi) as Li. unfold cset. cbn [cm_objs cm_heap]. rewrite (aset_put _ _ _ Li). cbn [bind]. eexists. split; [reflexivity|]. split; [|split; [reflexivity|]].
    + apply (cinv_set s file v _ i); auto.
      * lia.
      * intros k p e _ _. apply crep_ext.
      * rewrite app_length. lia.
      * intros k y Q. rewrite nth_error_app1 by (apply nth_lt in Q; lia). auto.
      * exists (length (cm_heap s)). split; [exact Lh|]. split; [reflexivity|]. rewrite nth_error_app2, Nat.sub_diag by lia. reflexivity.
      * intros b' k p Nk O Q. unfold cowns in O. injection O as <-. eapply cfresh; eauto.
    + intros Cv No b' x' Lb Q. cbn [cm_heap cm_objs] in *. destruct (nth_snoc _ _ _ _ Q) as [[_ Q']|[-> _]].
      * destruct (Cv b' x' Lb Q') as (k & o & Qo & Oo). destruct (Nat.eq_dec k i) as [->|Nki].
        -- exfalso. rewrite Qi in Qo. injection Qo as <-. destruct (cowns_rep _ _ _ _ _ Ri Oo) as (_ & y & -> & _). apply No. destruct Pi as (Pi & _). exists i, j, y. auto.
        -- exists k, o. rewrite nth_put_neq by auto. auto.
      * exists i. eexists. split; [apply nth_put_eq; exact Li|]. reflexivity.
  - (* MoveTo *)
    destruct (cinv_obj s file v j c I P) as (a & Qa & Ra & ->). destruct (cinv_obj s file v i d I Pi) as (ai & Qi & Ri & ->). cbn [bind].
    pose proof (nth_lt _ _ _ Qa) as Lj. pose proof (nth_lt _ _ _ Qi) as Li. unfold cset. rewrite (aset_put _ _ _ Li). cbn [bind cm_objs cm_heap].
    rewrite (aset_put (put (cm_objs s) i (Some a)) j) by (rewrite put_length; exact Lj). cbn [bind]. eexists. split; [reflexivity|]. split; [|split; [reflexivity|]].
    + assert (Co : forall A (l : list A) x y, put (put l i x) j y = put (put l j y) i x).
      { clear - Ne. intros A l x y. revert i j Ne. induction l as [|z l IH]; intros [|i] [|j] Ne; cbn [put]; auto; try lia. f_equal. apply IH. lia. }
      rewrite !Co. set (s1 := {| cm_heap := cm_heap s; cm_objs := put (cm_objs s) j (Some cmoved) |}).
      assert (I1 : cinv s1 file (put v j CMoved)).
      { apply (cinv_set s file v (cm_heap s) j); auto; [lia|reflexivity|]. intros b k p _ O. exfalso. exact (cowns_moved b O). }
      apply (cinv_set s1 file (put v j CMoved) (cm_heap s) i (Some a) c I1); auto.
      * rewrite put_length. lia.
      * intros b k p Nk O Q Op. cbn [s1 cm_objs] in Q. destruct (Nat.eq_dec k j) as [->|Nkj].
        -- rewrite nth_put_eq in Q by exact Lj. injection Q as <-. exact (cowns_moved b Op).
        -- rewrite nth_put_neq in Q by auto. exact (D k j p (Some a) b Nkj Q Qa Op O).
    + intros Cv No b x Lb Q. cbn [cm_objs cm_heap] in *. destruct (Cv b x Lb Q) as (k & p & Qp & Op).
      destruct (Nat.eq_dec k j) as [->|Nkj].
      * rewrite Qa in Qp. injection Qp as <-. exists i, (Some a). split; [|exact Op]. rewrite nth_put_neq by auto. apply nth_put_eq. exact Li.
      * destruct (Nat.eq_dec k i) as [->|Nki].
        -- exfalso. rewrite Qi in Qp. injection Qp as <-. destruct (cowns_rep _ _ _ _ _ Ri Op) as (_ & y & -> & _). apply No. destruct Pi as (Pi & _). exists i, j, y. auto.
        -- exists k, p. split; [|exact Op]. rewrite nth_put_neq by auto. rewrite nth_put_neq by auto. exact Qp.
  - (* Begin *)
    destruct (cinv_obj s file v j c I P) as (a & Qa & Ra & ->). cbn [bind].
    destruct (cstore s file v j a c x _ file' v' I P Qa Ra C S) as (b & s' & -> & H & I' & Lf & Cv). cbn [bind]. unfold card_parse_begin. rewrite H. cbn [bind]. exists s'. auto.
  - (* Next *)
    destruct (cinv_obj s file v j c I P) as (a & Qa & Ra & ->). cbn [bind].
    destruct (cstore s file v j a c x _ file' v' I P Qa Ra C S) as (b & s' & -> & H & I' & Lf & Cv). cbn [bind]. rewrite N. cbn [bind]. rewrite H. cbn [bind]. exists s'. auto.
  - (* NextWidth *)
    destruct (cinv_obj s file v j c I P) as (a & Qa & Ra & ->). cbn [bind].
    destruct (cstore s file v j a c x _ file' v' I P Qa Ra C S) as (b & s' & -> & H & I' & Lf & Cv). cbn [bind]. rewrite N. cbn [bind]. rewrite H. cbn [bind]. exists s'. auto.
  - (* Ask *)
    destruct (cinv_obj s file v j c I P) as (a & Qa & Ra & ->). cbn [bind]. destruct (cderef s file v a c x I Ra C) as (b & _ & -> & _). cbn [bind]. rewrite Q. cbn [bind]. exists s. auto.
  - (* Destroy *)
    destruct (cinv_obj s file v j c I P) as (a & Qa & Ra & ->). cbn [bind]. pose proof (nth_lt _ _ _ Qa) as Lj.
    destruct c as [| |k|x]; cbn in Ra.
    + discriminate.
    + injection Ra as ->. cbn [co_del cmoved bind]. unfold cset. rewrite (aset_put _ _ _ Lj). cbn [bind]. eexists. split; [reflexivity|]. split; [|split; [reflexivity|]].
      * apply (cinv_set s file v (cm_heap s) j None CGone I); auto; [lia|reflexivity|]. intros b i p _ O. discriminate.
      * intros Cv _ b x Lb Q. destruct (Cv b x Lb Q) as (i & p & Qp & Op). exists i, p. split; [|exact Op]. cbn [cm_objs]. rewrite nth_put_neq; [exact Qp|].
        intros <-. rewrite Qa in Qp. injection Qp as <-. exact (cowns_moved b Op).
    + destruct Ra as (Lk & [= ->]). cbn [co_del bind]. unfold cset. rewrite (aset_put _ _ _ Lj). cbn [bind]. eexists. split; [reflexivity|]. split; [|split; [reflexivity|]].
      * apply (cinv_set s file v (cm_heap s) j None CGone I); auto; [lia|reflexivity|]. intros b i p _ O. discriminate.
      * intros Cv _ b x Lb Q. destruct (Cv b x Lb Q) as (i & p & Qp & Op). exists i, p. split; [|exact Op]. cbn [cm_objs]. rewrite nth_put_neq; [exact Qp|].
        intros <-. rewrite Qa in Qp. injection Qp as <-. unfold cowns in Op. discriminate.
    + destruct Ra as (b & Lb & [= ->] & Nb). cbn [co_del]. unfold deref. cbn [co_handle]. rewrite (proj2 (aget_OK _ _ _) Nb). cbn [bind]. unfold cput. pose proof (nth_lt _ _ _ Nb) as Lbh.
      rewrite (aset_put _ _ _ Lbh). cbn [bind]. unfold cset. cbn [cm_objs cm_heap]. rewrite (aset_put _ _ _ Lj). cbn [bind]. eexists. split; [reflexivity|]. split; [|split; [reflexivity|]].
      * apply (cinv_set s file v (put (cm_heap s) b None) j None CGone I); auto; [lia| | | |reflexivity|intros b' i p _ O; discriminate].
        -- intros i p d Ni Qp Rp. apply crep_upd; [exact Rp|]. intros O. eapply (D i j); eauto. reflexivity.
        -- rewrite put_length. exact Lh.
        -- intros k y Q. rewrite nth_put_neq; [apply F; exact Q|]. apply nth_lt in Q. lia.
      * intros Cv _ b' x' Lb' Q. cbn [cm_heap cm_objs] in *. destruct (Nat.eq_dec b b') as [<-|Nbb]; [rewrite nth_put_eq in Q by exact Lbh; discriminate|].
        rewrite nth_put_neq in Q by exact Nbb. destruct (Cv b' x' Lb' Q) as (i & p & Qp & Op). exists i, p. split; [|exact Op].
        rewrite nth_put_neq; [exact Qp|]. intros <-. rewrite Qa in Qp. injection Qp as <-. unfold cowns in Op. congruence.
Qed.

Lemma cstep_det file v o r1 f1 v1 r2 f2 v2 : cvstep file v o r1 f1 v1 -> cvstep file v o r2 f2 v2 -> f1 = f2 /\ v1 = v2.
Proof.
  assert (CD : forall c x y, card_of file c x -> card_of file c y -> x = y) by (intros [| |k|z] x y; cbn; try contradiction; congruence).
  intros S1 S2. inversion S1; subst; inversion S2; subst; unfold present in *;
  repeat match goal with H : _ /\ _ |- _ => destruct H end;
  repeat match goal with H : nth_error ?a ?b = Some _, H' : nth_error ?a ?b = Some _ |- _ => rewrite H in H'; injection H' as <- end;
  repeat match goal with H : card_of _ ?c ?x, H' : card_of _ ?c ?y |- _ => pose proof (CD c x y H H'); subst; clear H' end;
  repeat match goal with H : card_parse_next_width ?a ?b ?c = OK _, H' : card_parse_next_width ?a ?b ?c = OK _ |- _ => rewrite H in H'; injection H' as <- end;
  repeat match goal with H : store ?a ?b ?c ?d ?e = _, H' : store ?a ?b ?c ?d ?e = _ |- _ => rewrite H in H'; injection H' as <- <- end;
  auto.
Qed.

Lemma crun_ok : forall prog s file v rs file' v', cinv s file v -> cvrun file v prog rs file' v' -> exists s', crun s prog = OK (s', rs) /\ cinv s' file' v' /\
  length file' = length file /\ (ccovered (length file) s -> cno_overwrite file v prog -> ccovered (length file) s').
Proof.
  induction prog as [|o prog IH]; intros s file v rs file' v' I R.
  - inversion R; subst. exists s. split; [reflexivity|]. auto.
  - inversion R as [|? ? ? r f1 v1 ? rs' ? ? S1 R1]; subst.
    destruct (cstep_ok s file v o r f1 v1 I S1) as (s1 & Q1 & I1 & L1 & C1). destruct (IH s1 f1 v1 rs' file' v' I1 R1) as (s2 & Q2 & I2 & L2 & C2).
    exists s2. cbn [crun]. rewrite Q1. cbn [bind]. rewrite Q2. cbn [bind]. split; [reflexivity|]. split; [exact I2|]. split; [congruence|].
    intros C N. inversion N as [|? ? ? r' f1' v1' ? No S1' N1]; subst. rewrite L1 in C2. apply C2; [apply C1; assumption|].
    destruct (cstep_det _ _ _ _ _ _ _ _ _ S1 S1') as (-> & ->). exact N1.
Qed.

Lemma cinv0 file : cinv (cstart file) file [].
Proof.
  split; [reflexivity|]. split; [cbn; rewrite map_length; lia|]. split; [intros k x Q; cbn; rewrite nth_error_map, Q; reflexivity|].
  split; intros; destruct j; discriminate || (destruct i; discriminate).
Qed.
Lemma ccovered0 file : ccovered (length file) (cstart file).
Proof. intros b x L Q. apply nth_lt in Q. cbn in Q. rewrite map_length in Q. lia. Qed.

(** ** Keywords *)
Lemma c_str_id s : is_cstr s -> c_str s = s.
Proof. induction 1 as [|b s H _ IH]; [reflexivity|]. cbn [c_str]. unfold NUL. destruct (Z.eqb_spec b 0); [lia|]. rewrite IH. reflexivity. Qed.

Lemma slice_walk_ok kws : forall n p fuel, p + S n <= length kws -> S n < fuel ->
  slice_walk fuel kws (Some p, Z.of_nat n) = OK (firstn (S n) (skipn p kws)).
Proof.
  induction n as [|n IH]; intros p fuel L Fu; (destruct fuel as [|fuel]; [lia|]); cbn [slice_walk fst].
  - destruct (nth_error kws p) as [k|] eqn:Q; [|apply nth_error_None in Q; lia]. rewrite (proj2 (aget_OK _ _ _) Q). cbn [bind].
    unfold slice_next. cbn [snd Z.of_nat Z.eqb]. destruct fuel as [|fuel]; [lia|]. cbn [slice_walk fst bind].
    clear - Q. revert p Q. induction kws as [|y l IH]; intros [|p] Q; try discriminate; [injection Q as ->; reflexivity|]. cbn [skipn]. apply IH. exact Q.
  - destruct (nth_error kws p) as [k|] eqn:Q; [|apply nth_error_None in Q; lia]. rewrite (proj2 (aget_OK _ _ _) Q). cbn [bind].
    unfold slice_next. cbn [snd fst]. destruct (Z.eqb_spec (Z.of_nat (S n)) 0); [lia|]. cbn [option_map].
    replace (Z.of_nat (S n) - 1)%Z with (Z.of_nat n) by lia. rewrite IH by lia. cbn [bind]. f_equal.
    clear - Q. revert p Q. induction kws as [|y l IH]; intros [|p] Q; try discriminate; [injection Q as ->; reflexivity|]. cbn [skipn]. apply IH. exact Q.
Qed.

Lemma slice_all_ok kws p n : (Z.of_nat n < 2 ^ 64)%Z -> p + S n <= length kws ->
  slice_all kws (p, S n) = OK (firstn (S n) (skipn p kws)).
Proof.
  intros B L. unfold slice_all, slice_begin. cbn [fst snd]. replace (Z.of_nat (S n) - 1)%Z with (Z.of_nat n) by lia.
  unfold u64. rewrite Z.mod_small by lia. apply slice_walk_ok; lia.
Qed.

Lemma cards_walk_ok k : forall n i fuel, i + n = length (kw_cards k) -> n < fuel -> cards_walk fuel k i = OK (skipn i (kw_cards k)).
Proof.
  induction n as [|n IH]; intros i fuel E Fu; (destruct fuel as [|fuel]; [lia|]); cbn [cards_walk].
  - destruct (Nat.eqb_spec i (length (kw_cards k))); [|lia]. cbn [negb]. rewrite skipn_all2 by lia. reflexivity.
  - destruct (Nat.eqb_spec i (length (kw_cards k))); [lia|]. cbn [negb].
    destruct (nth_error (kw_cards k) i) as [c|] eqn:Q; [|apply nth_error_None in Q; lia]. rewrite (proj2 (aget_OK _ _ _) Q). cbn [bind].
    rewrite (IH (i + 1)) by lia. cbn [bind]. f_equal. replace (i + 1) with (S i) by lia.
    clear - Q. revert i Q. induction (kw_cards k) as [|y l IH]; intros [|p] Q; try discriminate; [injection Q as ->; reflexivity|]. cbn [skipn]. apply IH. exact Q.
Qed.

Lemma slice_walk_over kws : forall m p fuel left, p + m = length kws -> (Z.of_nat m <= left)%Z -> m < fuel ->
  slice_walk fuel kws (Some p, left) = UB.
Proof.
  induction m as [|m IH]; intros p fuel left E B Fu; (destruct fuel as [|fuel]; [lia|]); cbn [slice_walk fst].
  - unfold aget. rewrite (proj2 (nth_error_None kws p)) by lia. reflexivity.
  - destruct (nth_error kws p) as [k|] eqn:Q; [|apply nth_error_None in Q; lia]. rewrite (proj2 (aget_OK _ _ _) Q). cbn [bind].
    unfold slice_next. cbn [snd fst]. destruct (Z.eqb_spec left 0); [lia|]. cbn [option_map]. rewrite IH by lia. reflexivity.
Qed.
