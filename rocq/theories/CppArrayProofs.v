(** * Proofs about dro::Array and the string classes *)
From Verif Require Import CBase CBaseFacts CppArrayModel CppArraySpec.

(** ** Lists *)
Lemma replace_length {A} (l : list A) i x : length (replace l i x) = length l.
Proof. revert i; induction l as [|y l IH]; intros [|i]; cbn [replace length]; auto. Qed.
Lemma nth_replace_eq {A} (l : list A) i x : i < length l -> nth_error (replace l i x) i = Some x.
Proof. revert i; induction l as [|y l IH]; intros [|i] L; cbn [replace length nth_error] in *; auto; try lia. apply IH. lia. Qed.
Lemma nth_replace_neq {A} (l : list A) i j x : i <> j -> nth_error (replace l i x) j = nth_error l j.
Proof. revert i j; induction l as [|y l IH]; intros [|i] [|j] L; cbn [replace nth_error] in *; auto; lia. Qed.
Lemma aset_replace {A} (l : list A) i x : i < length l -> aset l i x = OK (replace l i x).
Proof. revert i; induction l as [|y l IH]; intros [|i] L; cbn [replace length aset] in *; auto; try lia. rewrite IH by lia. reflexivity. Qed.
Lemma replace_comm {A} (l : list A) i j x y : i <> j -> replace (replace l i x) j y = replace (replace l j y) i x.
Proof. revert i j; induction l as [|z l IH]; intros [|i] [|j] L; cbn [replace]; auto; try lia. f_equal. apply IH. lia. Qed.
Lemma nth_snoc {A} (l : list A) x i y : nth_error (l ++ [x]) i = Some y -> (i < length l /\ nth_error l i = Some y) \/ (i = length l /\ y = x).
Proof.
  intros Q. destruct (Nat.lt_ge_cases i (length l)) as [L|L].
  - left. rewrite nth_error_app1 in Q by assumption. auto.
  - right. rewrite nth_error_app2 in Q by assumption. destruct (i - length l) eqn:E; cbn in Q; [injection Q as <-; split; [lia|reflexivity]|destruct n; discriminate].
Qed.
Lemma nth_lt {A} (l : list A) i x : nth_error l i = Some x -> i < length l.
Proof. intros Q. apply nth_error_Some. congruence. Qed.

(** ** The invariant *)
Definition rep (h : heap) (o : option arr) (v : vobj) : Prop :=
  match v with
  | Gone => o = None
  | Empty => exists d, o = Some {| a_data := None; a_size := 0; a_del := d |}
  | Holds c => exists b, o = Some {| a_data := Some (b, 0); a_size := length c; a_del := true |} /\ nth_error h b = Some (Some c)
  end.
Definition owns (o : option arr) (b : nat) : Prop := exists a p, o = Some a /\ a_data a = Some (b, p).
Definition inv (s : mach) (v : list vobj) : Prop :=
  length (m_objs s) = length v /\
  (forall j o w, nth_error (m_objs s) j = Some o -> nth_error v j = Some w -> rep (m_heap s) o w) /\
  (forall i j o p b, i <> j -> nth_error (m_objs s) i = Some o -> nth_error (m_objs s) j = Some p -> owns o b -> owns p b -> False).
Definition covered (s : mach) : Prop :=
  forall b, allocated s b -> exists j o, nth_error (m_objs s) j = Some o /\ owns o b.

Lemma owns_rep h o v b : rep h o v -> owns o b -> exists c, v = Holds c /\ o = Some {| a_data := Some (b, 0); a_size := length c; a_del := true |} /\ nth_error h b = Some (Some c).
Proof.
  intros R (a & p & -> & D). destruct v as [| |c]; cbn in R; [discriminate|destruct R as (d & [= ->]); discriminate|].
  destruct R as (b' & [= ->] & N). cbn in D. injection D as -> <-. eauto.
Qed.
Lemma owns_none b : ~ owns None b.
Proof. intros (a & p & Q & _). discriminate. Qed.
Lemma owns_null d b : ~ owns (Some {| a_data := None; a_size := 0; a_del := d |}) b.
Proof. intros (a & p & [= <-] & Q). discriminate. Qed.
Lemma owns_lt h o v b : rep h o v -> owns o b -> b < length h.
Proof. intros R O. destruct (owns_rep _ _ _ _ R O) as (c & _ & _ & N). eapply nth_lt; eauto. Qed.
Lemma rep_ext h x o v : rep h o v -> rep (h ++ [x]) o v.
Proof.
  destruct v as [| |c]; cbn; auto. intros (b & -> & N). exists b. split; [reflexivity|]. rewrite nth_error_app1; [assumption|eapply nth_lt; eauto].
Qed.
Lemma rep_upd h b x o v : rep h o v -> ~ owns o b -> rep (replace h b x) o v.
Proof.
  destruct v as [| |c]; cbn; auto. intros (b' & -> & N) NO. exists b'. split; [reflexivity|]. rewrite nth_replace_neq; [assumption|].
  intros ->. apply NO. eexists _, _. split; reflexivity.
Qed.
Lemma owns_data b p n d b' : owns (Some {| a_data := Some (b, p); a_size := n; a_del := d |}) b' -> b' = b.
Proof. intros (a & q & [= <-] & Q). cbn in Q. congruence. Qed.

Lemma inv_nth s v j w : inv s v -> nth_error v j = Some w -> exists o, nth_error (m_objs s) j = Some o /\ rep (m_heap s) o w.
Proof.
  intros (L & R & _) N. pose proof (nth_lt _ _ _ N) as Lt. destruct (nth_error (m_objs s) j) as [o|] eqn:Q.
  - exists o. split; auto. eapply R; eauto.
  - apply nth_error_None in Q. lia.
Qed.
Lemma inv_obj s v j w : inv s v -> nth_error v j = Some w -> w <> Gone -> exists a, nth_error (m_objs s) j = Some (Some a) /\ rep (m_heap s) (Some a) w /\ obj s j = OK a.
Proof.
  intros I N G. destruct (inv_nth s v j w I N) as (o & Q & R). destruct w as [| |c]; [congruence| |].
  - destruct R as (d & ->). eexists. split; [exact Q|]. split; [cbn; eauto|]. unfold obj. rewrite (proj2 (aget_OK _ _ _) Q). reflexivity.
  - destruct R as (b & -> & Nb). eexists. split; [exact Q|]. split; [cbn; eauto|]. unfold obj. rewrite (proj2 (aget_OK _ _ _) Q). reflexivity.
Qed.

(** A new object; its block, if any, is the new one or was given up. *)
Lemma inv_add s v h a w : inv s v -> (forall o x, rep (m_heap s) o x -> rep h o x) -> rep h (Some a) w ->
  (forall b j o, owns (Some a) b -> nth_error (m_objs s) j = Some o -> ~ owns o b) ->
  inv (add_obj s h a) (v ++ [w]).
Proof.
  intros (L & R & D) E Ra Fr. unfold add_obj. split; [|split]; cbn [m_heap m_objs].
  - rewrite !app_length, L. reflexivity.
  - intros j o x Qo Qx. destruct (nth_snoc _ _ _ _ Qo) as [[L1 Q1]|[-> ->]].
    + rewrite nth_error_app1 in Qx by lia. eapply E, R; eauto.
    + rewrite L in Qx. rewrite nth_error_app2, Nat.sub_diag in Qx by lia. injection Qx as <-. assumption.
  - intros i j o p b N Qo Qp Oo Op.
    destruct (nth_snoc _ _ _ _ Qo) as [[L1 Q1]|[-> ->]], (nth_snoc _ _ _ _ Qp) as [[L2 Q2]|[-> ->]]; [eauto| | |lia].
    + exact (Fr b i o Op Q1 Oo).
    + exact (Fr b j p Oo Q2 Op).
Qed.

(** One object and the memory change. *)
Lemma inv_set s v h j o w : inv s v -> j < length v ->
  (forall i p x, i <> j -> nth_error (m_objs s) i = Some p -> rep (m_heap s) p x -> rep h p x) -> rep h o w ->
  (forall b i p, i <> j -> owns o b -> nth_error (m_objs s) i = Some p -> ~ owns p b) ->
  inv {| m_heap := h; m_objs := replace (m_objs s) j o |} (replace v j w).
Proof.
  intros (L & R & D) Lj E Ro Fr. split; [|split]; cbn [m_heap m_objs].
  - rewrite !replace_length. exact L.
  - intros i p x Qo Qx. destruct (Nat.eq_dec i j) as [->|N].
    + rewrite nth_replace_eq in Qo by lia. rewrite nth_replace_eq in Qx by lia. congruence.
    + rewrite nth_replace_neq in Qo by auto. rewrite nth_replace_neq in Qx by auto. eapply E; eauto.
  - intros i k p q b N Qo Qp Oo Op.
    destruct (Nat.eq_dec i j) as [->|Ni], (Nat.eq_dec k j) as [->|Nk]; [lia| | |].
    + rewrite nth_replace_eq in Qo by lia. injection Qo as <-. rewrite nth_replace_neq in Qp by auto. exact (Fr b k q Nk Oo Qp Op).
    + rewrite nth_replace_eq in Qp by lia. injection Qp as <-. rewrite nth_replace_neq in Qo by auto. exact (Fr b i p Ni Op Qo Oo).
    + rewrite nth_replace_neq in Qo by auto. rewrite nth_replace_neq in Qp by auto. exact (D i k p q b N Qo Qp Oo Op).
Qed.

Lemma inv_owner s v i j a c o b : inv s v -> nth_error (m_objs s) j = Some (Some a) -> a_data a = Some (b, c) -> i <> j -> nth_error (m_objs s) i = Some o -> ~ owns o b.
Proof. intros (_ & _ & D) Q A N Q' O. eapply (D i j); eauto. exists a, c. auto. Qed.

Lemma fresh_block s v j o : inv s v -> nth_error (m_objs s) j = Some o -> ~ owns o (length (m_heap s)).
Proof.
  intros I Q O. destruct (nth_error v j) as [w|] eqn:N.
  - destruct I as (L & R & D). pose proof (owns_lt _ _ _ _ (R _ _ _ Q N) O). lia.
  - apply nth_error_None in N. destruct I as (L & _). apply nth_lt in Q. lia.
Qed.

Lemma slice_holds h b c : nth_error h b = Some (Some c) -> h_slice h (Some (b, 0)) (length c) = OK c.
Proof.
  intros N. unfold h_slice. destruct (Nat.eqb_spec (length c) 0) as [E|E]; [destruct c; [reflexivity|discriminate]|].
  rewrite (proj2 (aget_OK _ _ _) N). cbn [bind]. cbn [plus]. rewrite Nat.leb_refl, skipn_O, firstn_all. reflexivity.
Qed.
Lemma copy_rep h a w : rep h (Some a) w -> w <> Gone ->
  arr_copy h a = OK (h ++ [Some (values w)], {| a_data := Some (length h, 0); a_size := length (values w); a_del := true |}).
Proof.
  intros R G. unfold arr_copy. destruct w as [| |c]; [congruence| |].
  - destruct R as (d & [= ->]). reflexivity.
  - destruct R as (b & [= ->] & N). cbn [a_data a_size values]. rewrite (slice_holds h b c N). reflexivity.
Qed.
Lemma rep_new h c : rep (h ++ [Some c]) (Some {| a_data := Some (length h, 0); a_size := length c; a_del := true |}) (Holds c).
Proof. exists (length h). split; [reflexivity|]. rewrite nth_error_app2, Nat.sub_diag by lia. reflexivity. Qed.
Lemma get_range n k : ((n =? 0) || (n - 1 <? k)) = negb (k <? n).
Proof. destruct (Nat.eqb_spec n 0), (Nat.ltb_spec (n - 1) k), (Nat.ltb_spec k n); cbn; auto; lia. Qed.
Lemma read_holds h b c k x : nth_error h b = Some (Some c) -> nth_error c k = Some x -> h_read h (Some (b, 0)) k = OK x.
Proof. intros N Q. unfold h_read. rewrite (proj2 (aget_OK _ _ _) N). cbn [bind plus]. apply aget_OK. exact Q. Qed.

Lemma equal_from h b1 b2 c1 c2 s1 s2 d1 d2 : nth_error h b1 = Some (Some c1) -> nth_error h b2 = Some (Some c2) -> forall n i, i + n = length c1 -> length c1 = length c2 ->
  exists r, arr_equal_from n h {| a_data := Some (b1, 0); a_size := s1; a_del := d1 |} {| a_data := Some (b2, 0); a_size := s2; a_del := d2 |} i = OK r /\
    (r = true <-> skipn i c1 = skipn i c2).
Proof.
  intros N1 N2. induction n as [|n IH]; intros i E L.
  - exists true. split; [reflexivity|]. rewrite !skipn_all2 by lia. tauto.
  - cbn [arr_equal_from a_data].
    destruct (nth_error c1 i) as [x|] eqn:X; [|apply nth_error_None in X; lia]. destruct (nth_error c2 i) as [y|] eqn:Y; [|apply nth_error_None in Y; lia].
    rewrite (read_holds h b1 c1 i x N1 X), (read_holds h b2 c2 i y N2 Y). cbn [bind].
    assert (S1 : skipn i c1 = x :: skipn (i + 1) c1) by (replace (i + 1) with (S i) by lia; clear - X; revert i X; induction c1 as [|z c IH]; intros [|i] X; cbn in *; try discriminate; [congruence|auto]).
    assert (S2 : skipn i c2 = y :: skipn (i + 1) c2) by (replace (i + 1) with (S i) by lia; clear - Y; revert i Y; induction c2 as [|z c IH]; intros [|i] X; cbn in *; try discriminate; [congruence|auto]).
    destruct (Z.eqb_spec x y) as [<-|Ne].
    + destruct (IH (i + 1) ltac:(lia) L) as (r & -> & R). exists r. split; [reflexivity|]. rewrite R, S1, S2. split; [intros ->; reflexivity|intros [= Q]; exact Q].
    + exists false. split; [reflexivity|]. rewrite S1, S2. split; [discriminate|]. intros [= Q _]. congruence.
Qed.

Lemma equal_rep h a b v w : rep h (Some a) v -> v <> Gone -> rep h (Some b) w -> w <> Gone ->
  exists r, arr_equal h a b = OK r /\ (r = true <-> values v = values w).
Proof.
  intros Rv Gv Rw Gw.
  assert (Sa : a_size a = length (values v)) by (destruct v as [| |c]; [congruence|destruct Rv as (d & [= ->]); reflexivity|destruct Rv as (b' & [= ->] & _); reflexivity]).
  assert (Sb : a_size b = length (values w)) by (destruct w as [| |c]; [congruence|destruct Rw as (d & [= ->]); reflexivity|destruct Rw as (b' & [= ->] & _); reflexivity]).
  unfold arr_equal. rewrite Sa, Sb. destruct (Nat.eqb_spec (length (values v)) (length (values w))) as [E|E]; cbn [negb].
  - destruct (length (values v)) eqn:Lv.
    + exists true. split; [reflexivity|]. destruct (values v), (values w); try discriminate. tauto.
    + destruct v as [| |c]; [congruence|discriminate|]. destruct w as [| |c']; [congruence|cbn in E; discriminate|]. cbn [values] in *.
      destruct Rv as (b1 & [= ->] & N1), Rw as (b2 & [= ->] & N2). rewrite <- Lv.
      destruct (equal_from h b1 b2 c c' (length c) (length c') true true N1 N2 (length c) 0 eq_refl ltac:(lia)) as (r & Q & R).
      exists r. split; [exact Q|]. rewrite R. cbn. tauto.
  - exists false. split; [reflexivity|]. split; [discriminate|]. intros Q. rewrite Q in E. congruence.
Qed.

(** ** Every step of the machine is a step of values. *)
Lemma step_ok s v o r v' : inv s v -> vstep v o r v' -> exists s', step s o = OK (s', r) /\ inv s' v' /\
  (covered s -> ~ overwrites v o -> covered s').
Proof.
  intros I St. destruct St as [n|c| |j o N G|j o N G|i j o N G (oi & Ni & Gi) Ne|i j o N G (oi & Ni & Gi) Ne|j k o x N G K|j k o N G K|j k x c N K|j k x o N G K|j o N G|i j o p b Ni Gi Nj Gj B|j o N G]; cbn [step].
  - (* New *) unfold h_malloc. eexists. split; [reflexivity|]. split.
    + apply inv_add with (w := Holds (malloc n)); [exact I|apply rep_ext| |].
      * exists (length (m_heap s)). split; [unfold malloc; rewrite repeat_length; reflexivity|]. rewrite nth_error_app2, Nat.sub_diag by lia. reflexivity.
      * intros b j p O Q. apply owns_data in O. subst b. eapply fresh_block; eauto.
    + intros C _ b (c & Q). cbn [add_obj m_heap m_objs] in *. destruct (nth_snoc _ _ _ _ Q) as [[L Q']|[-> _]].
      * destruct (C b (ex_intro _ c Q')) as (j & p & Qp & Op). exists j, p. split; [rewrite nth_error_app1 by (eapply nth_lt; eauto); exact Qp|exact Op].
      * exists (length (m_objs s)). eexists. split; [rewrite nth_error_app2, Nat.sub_diag by lia; reflexivity|]. eexists _, _. split; reflexivity.
  - (* Adopt *) unfold h_malloc. eexists. split; [reflexivity|]. split.
    + apply inv_add with (w := Holds c); [exact I|apply rep_ext|apply rep_new|].
      intros b j p O Q. apply owns_data in O. subst b. eapply fresh_block; eauto.
    + intros C _ b (c' & Q). cbn [add_obj m_heap m_objs] in *. destruct (nth_snoc _ _ _ _ Q) as [[L Q']|[-> _]].
      * destruct (C b (ex_intro _ c' Q')) as (j & p & Qp & Op). exists j, p. split; [rewrite nth_error_app1 by (eapply nth_lt; eauto); exact Qp|exact Op].
      * exists (length (m_objs s)). eexists. split; [rewrite nth_error_app2, Nat.sub_diag by lia; reflexivity|]. eexists _, _. split; reflexivity.
  - (* Default *) eexists. split; [reflexivity|]. split.
    + apply inv_add with (w := Empty); [exact I|auto|exists true; reflexivity|]. intros b j p O. exfalso. exact (owns_null true b O).
    + intros C _ b Q. destruct (C b Q) as (j & p & Qp & Op). exists j, p. split; [|exact Op]. cbn [add_obj m_objs]. rewrite nth_error_app1 by (eapply nth_lt; eauto). exact Qp.
  - (* MoveNew *)
    destruct (inv_obj s v j o I N G) as (a & Qa & Ra & ->). cbn [bind]. unfold arr_move. cbn [fst snd]. cbn [bind].
    pose proof (nth_lt _ _ _ Qa) as Lj. unfold set_obj. rewrite aset_replace by exact Lj. cbn [bind]. eexists. split; [reflexivity|]. split.
    + set (s1 := {| m_heap := m_heap s; m_objs := replace (m_objs s) j (Some {| a_data := None; a_size := 0; a_del := false |}) |}).
      assert (I1 : inv s1 (replace v j Empty)).
      { apply (inv_set s v (m_heap s) j); auto; [destruct I as (L & _); lia|exists false; reflexivity|]. intros b i p _ O. exfalso. exact (owns_null false b O). }
      apply (inv_add s1 (replace v j Empty) (m_heap s1) a o I1); auto.
      intros b i p O Q Op. cbn [s1 m_objs] in Q. destruct (Nat.eq_dec i j) as [->|Nij].
      * rewrite nth_replace_eq in Q by exact Lj. injection Q as <-. exact (owns_null false b Op).
      * rewrite nth_replace_neq in Q by auto. destruct I as (_ & _ & D). exact (D i j p (Some a) b Nij Q Qa Op O).
    + intros C _ b Q. cbn [add_obj m_heap m_objs] in *. destruct (C b Q) as (i & p & Qp & Op). destruct (Nat.eq_dec i j) as [->|Nij].
      * rewrite Qa in Qp. injection Qp as <-. exists (length (m_objs s)), (Some a). split; [|exact Op]. rewrite nth_error_app2 by (rewrite replace_length; lia). rewrite replace_length, Nat.sub_diag. reflexivity.
      * exists i, p. split; [|exact Op]. rewrite nth_error_app1 by (rewrite replace_length; eapply nth_lt; eauto). rewrite nth_replace_neq by auto. exact Qp.
  - (* CopyNew *)
    destruct (inv_obj s v j o I N G) as (a & Qa & Ra & ->). cbn [bind]. rewrite (copy_rep _ a o Ra G). cbn [bind]. eexists. split; [reflexivity|]. split.
    + apply inv_add with (w := Holds (values o)); [exact I|apply rep_ext|apply rep_new|].
      intros b i p O Q. apply owns_data in O. subst b. eapply fresh_block; eauto.
    + intros C _ b (c' & Q). cbn [add_obj m_heap m_objs] in *. destruct (nth_snoc _ _ _ _ Q) as [[L Q']|[-> _]].
      * destruct (C b (ex_intro _ c' Q')) as (i & p & Qp & Op). exists i, p. split; [rewrite nth_error_app1 by (eapply nth_lt; eauto); exact Qp|exact Op].
      * exists (length (m_objs s)). eexists. split; [rewrite nth_error_app2, Nat.sub_diag by lia; reflexivity|]. eexists _, _. split; reflexivity.
  - (* MoveTo *)
    destruct (inv_obj s v j o I N G) as (a & Qa & Ra & ->). destruct (inv_obj s v i oi I Ni Gi) as (ai & Qi & Ri & ->). cbn [bind].
    destruct (Nat.eqb_spec i j) as [|_]; [contradiction|]. unfold arr_move. unfold set_obj.
    pose proof (nth_lt _ _ _ Qa) as Lj. pose proof (nth_lt _ _ _ Qi) as Li.
    rewrite aset_replace by exact Li. cbn [bind m_objs m_heap]. rewrite aset_replace by (rewrite replace_length; exact Lj). cbn [bind m_objs m_heap].
    eexists. split; [reflexivity|]. rewrite (replace_comm _ i j) by exact Ne. rewrite (replace_comm v i j) by exact Ne.
    set (nul := {| a_data := None; a_size := 0; a_del := false |}).
    set (s1 := {| m_heap := m_heap s; m_objs := replace (m_objs s) j (Some nul) |}).
    assert (I1 : inv s1 (replace v j Empty)).
    { apply (inv_set s v (m_heap s) j); auto; [destruct I as (L & _); lia|exists false; reflexivity|]. intros b k p _ O. exfalso. exact (owns_null false b O). }
    split.
    + apply (inv_set s1 (replace v j Empty) (m_heap s) i (Some a) o I1); auto.
      * rewrite replace_length. destruct I as (L & _). lia.
      * intros b k p Nk O Q Op. cbn [s1 m_objs] in Q. destruct (Nat.eq_dec k j) as [->|Nkj].
        -- rewrite nth_replace_eq in Q by exact Lj. injection Q as <-. exact (owns_null false b Op).
        -- rewrite nth_replace_neq in Q by auto. destruct I as (_ & _ & D). exact (D k j p (Some a) b Nkj Q Qa Op O).
    + intros C No b Q. destruct (C b Q) as (k & p & Qp & Op). cbn [m_objs].
      destruct (Nat.eq_dec k j) as [->|Nkj].
      * rewrite Qa in Qp. injection Qp as <-. exists i, (Some a). split; [|exact Op]. rewrite nth_replace_eq by (rewrite replace_length; exact Li). reflexivity.
      * destruct (Nat.eq_dec k i) as [->|Nki].
        -- exfalso. rewrite Qi in Qp. injection Qp as <-. destruct (owns_rep _ _ _ _ Ri Op) as (c & -> & _). apply No. exists i, j, c. auto.
        -- exists k, p. split; [|exact Op]. rewrite nth_replace_neq by auto. rewrite nth_replace_neq by auto. exact Qp.
  - (* CopyTo *)
    destruct (inv_obj s v j o I N G) as (a & Qa & Ra & ->). destruct (inv_obj s v i oi I Ni Gi) as (ai & Qi & Ri & ->). cbn [bind].
    destruct (Nat.eqb_spec i j) as [|_]; [contradiction|]. rewrite (copy_rep _ a o Ra G). cbn [bind]. unfold set_obj. cbn [m_objs m_heap].
    pose proof (nth_lt _ _ _ Qa) as Lj. pose proof (nth_lt _ _ _ Qi) as Li.
    rewrite aset_replace by exact Li. cbn [bind m_objs m_heap]. eexists. split; [reflexivity|]. split.
    + apply (inv_set s v _ i); auto; [destruct I as (L & _); lia|intros k p x _ _; apply rep_ext|apply rep_new|].
      intros b k p Nk O Q. apply owns_data in O. subst b. eapply fresh_block; eauto.
    + intros C No b (c' & Q). cbn [m_heap m_objs] in *. destruct (nth_snoc _ _ _ _ Q) as [[L Q']|[-> _]].
      * destruct (C b (ex_intro _ c' Q')) as (k & p & Qp & Op). destruct (Nat.eq_dec k i) as [->|Nki].
        -- exfalso. rewrite Qi in Qp. injection Qp as <-. destruct (owns_rep _ _ _ _ Ri Op) as (c & -> & _). apply No. exists i, j, c. auto.
        -- exists k, p. split; [|exact Op]. rewrite nth_replace_neq by auto. exact Qp.
      * exists i. eexists. split; [rewrite nth_replace_eq by exact Li; reflexivity|]. eexists _, _. split; reflexivity.
  - (* Get *)
    destruct (inv_obj s v j o I N G) as (a & Qa & Ra & ->). cbn [bind]. destruct o as [| |c]; [congruence|destruct k; discriminate|].
    destruct Ra as (b & [= ->] & Nb). cbn [values] in K. unfold arr_get. cbn [a_size a_data]. rewrite get_range.
    pose proof (nth_lt _ _ _ K). replace (k <? length c) with true by (symmetry; apply Nat.ltb_lt; assumption). cbn [negb].
    rewrite (read_holds _ b c k x Nb K). cbn [bind]. eauto.
  - (* Get: range *)
    destruct (inv_obj s v j o I N G) as (a & Qa & Ra & ->). cbn [bind].
    assert (Sa : a_size a = length (values o)) by (destruct o as [| |c]; [congruence|destruct Ra as (d & [= ->]); reflexivity|destruct Ra as (b' & [= ->] & _); reflexivity]).
    unfold arr_get. rewrite get_range, Sa. replace (k <? length (values o)) with false by (symmetry; apply Nat.ltb_ge; assumption). cbn [negb bind]. eauto.
  - (* Set *)
    destruct (inv_obj s v j (Holds c) I N ltac:(discriminate)) as (a & Qa & (b & [= ->] & Nb) & ->). cbn [bind].
    unfold arr_set. cbn [a_size a_data]. rewrite get_range. replace (k <? length c) with true by (symmetry; apply Nat.ltb_lt; assumption). cbn [negb].
    unfold h_write. rewrite (proj2 (aget_OK _ _ _) Nb). cbn [bind plus]. rewrite aset_replace by exact K. cbn [bind].
    pose proof (nth_lt _ _ _ Nb) as Lb. rewrite aset_replace by exact Lb. cbn [bind]. eexists. split; [reflexivity|].
    pose proof (nth_lt _ _ _ Qa) as Lj.
    assert (Same : replace (m_objs s) j (Some {| a_data := Some (b, 0); a_size := length (replace c k x); a_del := true |}) = m_objs s).
    { rewrite replace_length. clear - Qa. revert j Qa. generalize (m_objs s). induction l as [|y l IH]; intros [|j] Q; cbn in *; try discriminate; [congruence|f_equal; auto]. }
    split.
    + rewrite <- Same at 1. apply (inv_set s v _ j); auto.
      * destruct I as (L & _). lia.
      * intros i p y Ni Qp Rp. apply rep_upd; [exact Rp|]. intros O. destruct I as (_ & _ & D). eapply (D i j); eauto. eexists _, _. split; reflexivity.
      * exists b. split; [reflexivity|]. apply nth_replace_eq. exact Lb.
      * intros b' i p Ni O Qp. apply owns_data in O. subst b'. eapply inv_owner; eauto; reflexivity.
    + intros C _ b' (c' & Q). cbn [m_heap m_objs] in *. apply C. destruct (Nat.eq_dec b b') as [->|Nbb]; [exists c; exact Nb|]. rewrite nth_replace_neq in Q by exact Nbb. exists c'. exact Q.
  - (* Set: range *)
    destruct (inv_obj s v j o I N G) as (a & Qa & Ra & ->). cbn [bind].
    assert (Sa : a_size a = length (values o)) by (destruct o as [| |c]; [congruence|destruct Ra as (d & [= ->]); reflexivity|destruct Ra as (b' & [= ->] & _); reflexivity]).
    unfold arr_set. rewrite get_range, Sa. replace (k <? length (values o)) with false by (symmetry; apply Nat.ltb_ge; assumption). cbn [negb bind].
    exists s. split; [destruct s; reflexivity|]. auto.
  - (* SizeOf *)
    destruct (inv_obj s v j o I N G) as (a & Qa & Ra & ->). cbn [bind].
    assert (Sa : a_size a = length (values o)) by (destruct o as [| |c]; [congruence|destruct Ra as (d & [= ->]); reflexivity|destruct Ra as (b' & [= ->] & _); reflexivity]).
    rewrite Sa. eauto.
  - (* Equal *)
    destruct (inv_obj s v i o I Ni Gi) as (a & Qa & Ra & ->). destruct (inv_obj s v j p I Nj Gj) as (a' & Qa' & Ra' & ->). cbn [bind].
    destruct (equal_rep _ a a' o p Ra Gi Ra' Gj) as (r & -> & R). cbn [bind].
    assert (r = b) as -> by (destruct r, b; auto; [symmetry; apply B, R; reflexivity|apply R, B; reflexivity]). eauto.
  - (* Destroy *)
    destruct (inv_obj s v j o I N G) as (a & Qa & Ra & ->). cbn [bind]. pose proof (nth_lt _ _ _ Qa) as Lj.
    destruct o as [| |c]; [congruence| |].
    + destruct Ra as (d & [= ->]). unfold arr_destroy. cbn [a_data bind]. unfold set_obj. cbn [m_objs m_heap]. rewrite aset_replace by exact Lj. cbn [bind].
      eexists. split; [reflexivity|]. split.
      * apply (inv_set s v (m_heap s) j None Gone I); auto; [destruct I as (L & _); lia|reflexivity|]. intros b i p _ O. exfalso. exact (owns_none b O).
      * intros C _ b Q. destruct (C b Q) as (i & p & Qp & Op). exists i, p. split; [|exact Op]. cbn [m_objs]. rewrite nth_replace_neq; [exact Qp|].
        intros <-. rewrite Qa in Qp. injection Qp as <-. exact (owns_null d b Op).
    + destruct Ra as (b & [= ->] & Nb). unfold arr_destroy. cbn [a_data a_del]. unfold h_free. cbn [fst snd]. rewrite (proj2 (aget_OK _ _ _) Nb). cbn [bind].
      rewrite Nat.eqb_refl. pose proof (nth_lt _ _ _ Nb) as Lb. rewrite aset_replace by exact Lb. cbn [bind]. unfold set_obj. cbn [m_objs m_heap]. rewrite aset_replace by exact Lj. cbn [bind].
      eexists. split; [reflexivity|]. split.
      * apply (inv_set s v _ j None Gone I); auto; [destruct I as (L & _); lia| |reflexivity|intros b' i p _ O; exfalso; exact (owns_none b' O)].
        intros i p x Ni Qp Rp. apply rep_upd; [exact Rp|]. eapply inv_owner; eauto; reflexivity.
      * intros C _ b' (c' & Q). cbn [m_heap m_objs] in *. destruct (Nat.eq_dec b b') as [<-|Nbb]; [rewrite nth_replace_eq in Q by exact Lb; discriminate|].
        rewrite nth_replace_neq in Q by exact Nbb. destruct (C b' (ex_intro _ c' Q)) as (i & p & Qp & Op). exists i, p. split; [|exact Op].
        rewrite nth_replace_neq; [exact Qp|]. intros <-. rewrite Qa in Qp. injection Qp as <-. apply owns_data in Op. congruence.
Qed.

Lemma run_ok : forall prog s v rs v', inv s v -> vrun v prog rs v' -> exists s', run s prog = OK (s', rs) /\ inv s' v' /\
  (covered s -> no_overwrite v prog -> covered s').
Proof.
  induction prog as [|o prog IH]; intros s v rs v' I R.
  - inversion R; subst. exists s. split; [reflexivity|]. auto.
  - inversion R as [|v0 o0 r v1 t rs' v2 S1 R1]; subst.
    destruct (step_ok s v o r v1 I S1) as (s1 & Q1 & I1 & C1). destruct (IH s1 v1 rs' v' I1 R1) as (s2 & Q2 & I2 & C2).
    exists s2. cbn [run]. rewrite Q1. cbn [bind]. rewrite Q2. cbn [bind]. split; [reflexivity|]. split; [exact I2|].
    intros C N. inversion N as [|v0 o0 r' v1' t' No S1' N1]; subst. apply C2; [apply C1; assumption|].
    (* the value step is determined by the machine *)
    destruct (step_ok s v o r' v1' I S1') as (s1' & Q1' & I1' & _). rewrite Q1 in Q1'. injection Q1' as <- <-.
    assert (v1 = v1') as -> by (clear - S1 S1'; inversion S1; subst; inversion S1'; subst; try congruence; try (exfalso; congruence); repeat match goal with H : nth_error ?a ?b = Some _, H' : nth_error ?a ?b = Some _ |- _ => rewrite H in H'; injection H' as <- end; congruence).
    exact N1.
Qed.

Lemma inv0 : inv mach0 [].
Proof. split; [reflexivity|]. split; intros; destruct j; discriminate || (destruct i; discriminate). Qed.
Lemma covered0 : covered mach0.
Proof. intros b (c & Q). destruct b; discriminate. Qed.

(** ** Time steps *)
Lemma timed_from_nth p nv : forall n t0 t, t < n -> nth_error (timed_from p nv n t0) t =
  Some (Some {| a_data := Some (fst p, snd p + (t0 + t) * nv); a_size := nv; a_del := t0 + t =? 0 |}).
Proof.
  induction n as [|n IH]; intros t0 t L; [lia|]. destruct t as [|t]; cbn [timed_from nth_error]; unfold arr_move; cbn [fst].
  - rewrite Nat.add_0_r. reflexivity.
  - rewrite IH by lia. replace (t0 + 1 + t) with (t0 + S t) by lia. reflexivity.
Qed.
Lemma timed_from_length p nv : forall n t0, length (timed_from p nv n t0) = n.
Proof. induction n as [|n IH]; intros t0; cbn [timed_from length]; auto. Qed.

Definition timed_mach (c : list Z) (nv T : nat) : mach := {| m_heap := [Some c]; m_objs := timed_from (0, 0) nv T 0 |}.
Lemma timed_vector_mach c nv T : timed_vector c nv T = timed_mach c nv T.
Proof. reflexivity. Qed.

Lemma nth_steps c nv T t : t < T -> nth_error (steps_of c nv T) t = Some (firstn nv (skipn (t * nv) c)).
Proof.
  intros L. unfold steps_of. rewrite nth_error_map. rewrite (nth_error_nth' _ 0) by (rewrite seq_length; exact L). rewrite seq_nth by exact L. reflexivity.
Qed.
Lemma steps_length c nv T : length (steps_of c nv T) = T.
Proof. unfold steps_of. rewrite map_length, seq_length. reflexivity. Qed.
Lemma skipn_nth {A} (l : list A) a k : nth_error (skipn a l) k = nth_error l (a + k).
Proof. revert a; induction l as [|x l IH]; intros [|a]; cbn [skipn plus nth_error]; auto; destruct k; reflexivity. Qed.
Lemma firstn_nth {A} (l : list A) n k : k < n -> nth_error (firstn n l) k = nth_error l k.
Proof. revert n k; induction l as [|x l IH]; intros [|n] [|k] L; cbn [firstn nth_error]; auto; try lia. apply IH. lia. Qed.
Lemma nth_ext_error {A} : forall a c : list A, (forall i, nth_error a i = nth_error c i) -> a = c.
Proof.
  induction a as [|x a IH]; intros [|y c] Q; [reflexivity|specialize (Q 0); discriminate|specialize (Q 0); discriminate|].
  pose proof (Q 0) as Q0. injection Q0 as ->. f_equal. apply IH. intros i. exact (Q (S i)).
Qed.
Lemma step_size (c : list Z) nv T t : length c = T * nv -> t < T -> length (firstn nv (skipn (t * nv) c)) = nv.
Proof. intros L Lt. rewrite firstn_length, skipn_length. nia. Qed.
Lemma steps_replace c nv T t k x : length c = T * nv -> t < T -> k < nv ->
  replace (map Holds (steps_of c nv T)) t (Holds (replace (firstn nv (skipn (t * nv) c)) k x)) = map Holds (steps_of (replace c (t * nv + k) x) nv T).
Proof.
  intros L Lt Lk. apply nth_ext_error. intros i.
  destruct (Nat.lt_ge_cases i T) as [Li|Li].
  2:{ rewrite (proj2 (nth_error_None _ _)) by (rewrite replace_length, map_length, steps_length; lia). symmetry. apply nth_error_None. rewrite map_length, steps_length. lia. }
  rewrite nth_error_map, (nth_steps _ nv T i Li). cbn [option_map]. destruct (Nat.eq_dec t i) as [<-|N].
  - rewrite nth_replace_eq by (rewrite map_length, steps_length; lia). f_equal. f_equal. apply nth_ext_error. intros m.
    destruct (Nat.lt_ge_cases m nv) as [Lm|Lm].
    + destruct (Nat.eq_dec k m) as [<-|Nm].
      * rewrite nth_replace_eq by (rewrite (step_size c nv T t L Lt); lia). rewrite firstn_nth, skipn_nth by lia. symmetry. apply nth_replace_eq. nia.
      * rewrite nth_replace_neq by exact Nm. rewrite !firstn_nth, !skipn_nth by lia. symmetry. apply nth_replace_neq. lia.
    + rewrite (proj2 (nth_error_None _ _)) by (rewrite replace_length, (step_size c nv T t L Lt); lia). symmetry. apply nth_error_None. rewrite (step_size _ nv T t) by (rewrite ?replace_length; assumption). lia.
  - rewrite nth_replace_neq by exact N. rewrite nth_error_map, (nth_steps _ nv T i Li). cbn [option_map]. f_equal. f_equal. apply nth_ext_error. intros m.
    destruct (Nat.lt_ge_cases m nv) as [Lm|Lm].
    + rewrite !firstn_nth, !skipn_nth by lia. symmetry. apply nth_replace_neq. intros E.
      destruct (Nat.lt_trichotomy t i) as [X|[X|X]]; [nia|lia|nia].
    + rewrite !(proj2 (nth_error_None _ _)); [reflexivity| |]; rewrite (step_size _ nv T i) by (rewrite ?replace_length; assumption); lia.
Qed.

Lemma timed_obj c nv T t w : nth_error (map Holds (steps_of c nv T)) t = Some w -> t < T /\ w = Holds (firstn nv (skipn (t * nv) c)) /\
  obj (timed_mach c nv T) t = OK {| a_data := Some (0, t * nv); a_size := nv; a_del := t =? 0 |}.
Proof.
  intros Q. pose proof (nth_lt _ _ _ Q) as L. rewrite map_length, steps_length in L. rewrite nth_error_map, nth_steps in Q by exact L. cbn in Q. injection Q as <-.
  split; [exact L|]. split; [reflexivity|]. unfold obj, timed_mach. cbn [m_objs]. rewrite (proj2 (aget_OK _ _ _) (timed_from_nth (0, 0) nv T 0 t L)). reflexivity.
Qed.

Lemma timed_run nv T : forall prog c rs v', length c = T * nv -> Forall element_op prog -> vrun (map Holds (steps_of c nv T)) prog rs v' ->
  exists c', run (timed_mach c nv T) prog = OK (timed_mach c' nv T, rs) /\ length c' = T * nv /\ v' = map Holds (steps_of c' nv T).
Proof.
  induction prog as [|o prog IH]; intros c rs v' L F R.
  - inversion R; subst. exists c. auto.
  - inversion F as [|o0 t0 E F']; subst. inversion R as [|v0 o0 r v1 t rs' v2 S1 R1]; subst. clear R.
    assert (G : exists c1, step (timed_mach c nv T) o = OK (timed_mach c1 nv T, r) /\ length c1 = T * nv /\ v1 = map Holds (steps_of c1 nv T)).
    { destruct o; cbn [element_op] in E; try contradiction; cbn [step]; inversion S1; subst; clear S1;
      match goal with H : nth_error (map Holds _) _ = Some _ |- _ => destruct (timed_obj _ _ _ _ _ H) as (Lt & Q & ->); clear H end;
      try (injection Q as ->); subst; cbn [bind]; cbn [values] in *.
      - match goal with H : nth_error (firstn _ _) _ = Some _ |- _ => rename H into K end.
        pose proof (nth_lt _ _ _ K) as Lk. rewrite (step_size c nv T j L Lt) in Lk. rewrite firstn_nth, skipn_nth in K by exact Lk.
        unfold arr_get. cbn [a_size a_data]. rewrite get_range. replace (k <? nv) with true by (symmetry; apply Nat.ltb_lt; exact Lk). cbn [negb].
        unfold h_read. cbn [timed_mach m_heap aget nth_error bind]. rewrite (proj2 (aget_OK _ _ _) K). cbn [bind]. exists c. auto.
      - match goal with H : length (firstn _ _) <= _ |- _ => rename H into K end. rewrite (step_size c nv T j L Lt) in K.
        unfold arr_get. cbn [a_size a_data]. rewrite get_range. replace (k <? nv) with false by (symmetry; apply Nat.ltb_ge; exact K). cbn [negb bind]. exists c. auto.
      - match goal with H : _ < length (firstn _ _) |- _ => rename H into K end. rewrite (step_size c nv T j L Lt) in K.
        unfold arr_set. cbn [a_size a_data]. rewrite get_range. replace (k <? nv) with true by (symmetry; apply Nat.ltb_lt; exact K). cbn [negb].
        unfold h_write. cbn [timed_mach m_heap aget nth_error bind]. rewrite aset_replace by nia. cbn [bind aset]. exists (replace c (j * nv + k) v).
        split; [reflexivity|]. split; [rewrite replace_length; exact L|]. apply steps_replace; auto.
      - match goal with H : length (firstn _ _) <= _ |- _ => rename H into K end. rewrite (step_size c nv T j L Lt) in K.
        unfold arr_set. cbn [a_size a_data]. rewrite get_range. replace (k <? nv) with false by (symmetry; apply Nat.ltb_ge; exact K). cbn [negb bind]. exists c. auto.
      - cbn [a_size]. rewrite (step_size c nv T j L Lt). exists c. auto. }
    destruct G as (c1 & Q1 & L1 & ->). destruct (IH c1 rs' v' L1 F' R1) as (c' & Q2 & L2 & E2). exists c'. cbn [run]. rewrite Q1. cbn [bind]. rewrite Q2. auto.
Qed.

(** Destroying all time steps, in any order. *)
Lemma timed_destroy c nv T : forall l gone, NoDup (l ++ gone) -> (forall t, In t (l ++ gone) <-> t < T) ->
  forall h os, length os = T ->
  (forall t, In t l -> nth_error os t = Some (Some {| a_data := Some (0, t * nv); a_size := nv; a_del := t =? 0 |})) ->
  (forall t, In t gone -> nth_error os t = Some None) ->
  (In 0 l -> h = [Some c]) -> (In 0 gone -> h = [None]) ->
  exists s', run {| m_heap := h; m_objs := os |} (map Destroy l) = OK (s', map (fun _ => Nothing) l) /\ (forall t, t < T -> nth_error (m_objs s') t = Some None) /\ (0 < T -> m_heap s' = [None]).
Proof.
  induction l as [|t l IH]; intros gone ND Al h os Lo Ho Hg H0 H1.
  - cbn [map run]. eexists. split; [reflexivity|]. cbn [m_objs m_heap]. split; [intros t Lt; apply Hg, Al; exact Lt|]. intros Lt. apply H1, Al. exact Lt.
  - cbn [map run step]. assert (Lt : t < T) by (apply Al; left; reflexivity).
    unfold obj at 1. cbn [m_objs]. rewrite (proj2 (aget_OK _ _ _) (Ho t ltac:(left; reflexivity))). cbn [bind].
    cbn [app] in ND. inversion ND as [|x y Nin ND']; subst.
    assert (G : exists h', arr_destroy h {| a_data := Some (0, t * nv); a_size := nv; a_del := t =? 0 |} = OK h' /\ (t = 0 -> h' = [None]) /\ (t <> 0 -> h' = h)).
    { unfold arr_destroy. cbn [a_data a_del]. destruct (Nat.eqb_spec t 0) as [->|N].
      - rewrite H0 by (left; reflexivity). cbn. eexists. split; [reflexivity|]. split; [reflexivity|congruence].
      - exists h. split; [reflexivity|]. split; [congruence|reflexivity]. }
    cbn [m_heap]. destruct G as (h' & -> & Z0 & Zn). cbn [bind]. unfold set_obj. cbn [m_objs m_heap]. rewrite aset_replace by lia. cbn [bind].
    destruct (IH (t :: gone)) with (h := h') (os := replace os t (None : option arr)) as (s' & Q & D & E).
    + apply (NoDup_Add (Add_app t l gone)). split; assumption.
    + intros u. rewrite <- Al. cbn [app In]. rewrite !in_app_iff. cbn [In]. tauto.
    + rewrite replace_length. reflexivity.
    + intros u Hu. rewrite nth_replace_neq; [apply Ho; right; exact Hu|]. intros <-. apply Nin, in_or_app. left; exact Hu.
    + intros u [<-|Hu]; [apply nth_replace_eq; lia|]. rewrite nth_replace_neq; [apply Hg; exact Hu|]. intros <-. apply Nin, in_or_app. right; exact Hu.
    + intros I0. assert (t <> 0) by (intros ->; apply Nin, in_or_app; left; exact I0). rewrite Zn by assumption. apply H0. right; exact I0.
    + intros [->|I0]; [apply Z0; reflexivity|]. assert (t <> 0) by (intros ->; apply Nin, in_or_app; right; exact I0). rewrite Zn by assumption. apply H1. exact I0.
    + rewrite Q. cbn [bind]. eexists. split; [reflexivity|]. split; assumption.
Qed.

(** ** Strings *)
Lemma cget_cases s i : is_cstr s -> i <= length s -> (i = length s /\ cget s i = OK 0%Z) \/ (i < length s /\ exists x, cget s i = OK x /\ (0 < x < 256)%Z /\ skipn i s = x :: skipn (i + 1) s).
Proof.
  intros C L. destruct (Nat.eq_dec i (length s)) as [->|N]; [left; split; [reflexivity|apply cget_end]|]. right. split; [lia|].
  exists (nth i s 0%Z). split; [apply cget_nth; lia|]. split.
  - unfold is_cstr in C. rewrite Forall_forall in C. apply C. apply nth_In. lia.
  - replace (i + 1) with (S i) by lia. assert (i < length s) by lia. clear - H. revert i H. induction s as [|y s IH]; intros [|i] H; cbn in *; try lia; [reflexivity|]. apply IH. lia.
Qed.
Lemma skipn_cons_nth {A} (l : list A) i d : i < length l -> skipn i l = nth i l d :: skipn (i + 1) l.
Proof. replace (i + 1) with (S i) by lia. revert i. induction l as [|y s IH]; intros [|i] H; cbn in *; try lia; [reflexivity|]. apply IH. lia. Qed.

Lemma string_eq_from_ok a b : is_cstr a -> is_cstr b -> forall fuel i, i <= length a -> i <= length b -> length a - i < fuel ->
  exists r, string_eq_from fuel a b i = OK r /\ (r = true <-> skipn i a = skipn i b).
Proof.
  intros Ca Cb. induction fuel as [|fuel IH]; intros i La Lb Lf; [lia|]. cbn [string_eq_from]. unfold NUL.
  destruct (cget_cases a i Ca La) as [(Ea & ->)|(Ea & x & -> & Rx & Sa)]; cbn [bind].
  - cbn [Z.eqb negb bind andb]. destruct (cget_cases b i Cb Lb) as [(Eb & ->)|(Eb & y & -> & Ry & Sb)]; cbn [bind].
    + exists true. split; [reflexivity|]. rewrite !skipn_all2 by lia. tauto.
    + eexists. split; [reflexivity|]. rewrite Sb, (skipn_all2 a) by lia. destruct (Z.eqb_spec y 0); [lia|]. split; discriminate.
  - destruct (Z.eqb_spec x 0); [lia|]. cbn [negb]. destruct (cget_cases b i Cb Lb) as [(Eb & ->)|(Eb & y & -> & Ry & Sb)]; cbn [bind].
    + cbn [Z.eqb negb bind andb]. exists false. split; [reflexivity|]. rewrite Sa, (skipn_all2 b) by lia. split; discriminate.
    + destruct (Z.eqb_spec y 0); [lia|]. cbn [negb andb]. rewrite Sa, Sb. destruct (Z.eqb_spec x y) as [<-|N]; cbn [negb].
      * destruct (IH (i + 1) ltac:(lia) ltac:(lia) ltac:(lia)) as (r & -> & R). exists r. split; [reflexivity|]. rewrite R. split; [intros ->; reflexivity|intros [= Q]; exact Q].
      * exists false. split; [reflexivity|]. split; [discriminate|intros [= Q _]; contradiction].
Qed.

Lemma c_str_cstr s : Forall (fun b => 0 <= b < 256)%Z s -> is_cstr (c_str s).
Proof.
  induction s as [|x s IH]; intros F; [constructor|]. inversion F; subst. cbn [c_str]. unfold NUL. destruct (Z.eqb_spec x 0); constructor; [lia|apply IH; assumption].
Qed.
Lemma c_str_id s : is_cstr s -> c_str s = s.
Proof. induction s as [|x s IH]; intros F; [reflexivity|]. inversion F; subst. cbn [c_str]. unfold NUL. destruct (Z.eqb_spec x 0); [lia|]. f_equal. auto. Qed.

Lemma firstn_snoc {A} (l : list A) n d : n < length l -> firstn (n + 1) l = firstn n l ++ [nth n l d].
Proof. replace (n + 1) with (S n) by lia. revert n. induction l as [|y s IH]; intros [|i] H; cbn in *; try lia; [reflexivity|]. f_equal. apply IH. lia. Qed.
Lemma skip_firstn_cons {A} (l : list A) n i d : i < n -> n <= length l -> skipn i (firstn n l) = nth i l d :: skipn (i + 1) (firstn n l).
Proof.
  intros Li Ln. rewrite (skipn_cons_nth (firstn n l) i d) by (rewrite firstn_length; lia). f_equal.
  pose proof (firstn_nth l n i Li) as Q.
  rewrite (nth_error_nth' (firstn n l) d) in Q by (rewrite firstn_length; lia). rewrite (nth_error_nth' l d) in Q by lia. injection Q as ->. reflexivity.
Qed.

Lemma sized_eq_from_ok a n b : n <= length a -> is_cstr b -> forall fuel i, i <= n -> i <= length b -> n - i < fuel ->
  exists r, sized_eq_from fuel a n b i = OK r /\ (r = true <-> skipn i (firstn n a) = skipn i b).
Proof.
  intros Ln Cb. induction fuel as [|fuel IH]; intros i Li Lb Lf; [lia|]. cbn [sized_eq_from]. unfold NUL.
  destruct (Nat.ltb_spec i n) as [Lt|Ge].
  - rewrite (skip_firstn_cons a n i 0%Z Lt Ln). destruct (cget_cases b i Cb Lb) as [(Eb & ->)|(Eb & y & -> & Ry & Sb)]; cbn [bind].
    + cbn [Z.eqb negb]. destruct (Nat.eqb_spec i n); [lia|]. exists false. split; [reflexivity|]. rewrite (skipn_all2 b) by lia. split; discriminate.
    + destruct (Z.eqb_spec y 0); [lia|]. cbn [negb]. rewrite (aget_nth a i 0%Z) by lia. cbn [bind]. rewrite Sb. destruct (Z.eqb_spec (nth i a 0%Z) y) as [->|N]; cbn [negb].
      * destruct (IH (i + 1) ltac:(lia) ltac:(lia) ltac:(lia)) as (r & -> & R). exists r. split; [reflexivity|]. rewrite R. split; [intros ->; reflexivity|intros [= Q]; exact Q].
      * exists false. split; [reflexivity|]. split; [discriminate|intros [= Q _]; contradiction].
  - assert (i = n) as -> by lia. cbn [bind]. rewrite Nat.eqb_refl. rewrite skipn_all2 by (rewrite firstn_length; lia).
    destruct (cget_cases b n Cb Lb) as [(Eb & ->)|(Eb & y & -> & Ry & Sb)]; cbn [bind].
    + exists true. split; [reflexivity|]. rewrite skipn_all2 by lia. tauto.
    + eexists. split; [reflexivity|]. rewrite Sb. destruct (Z.eqb_spec y 0); [lia|]. split; discriminate.
Qed.

Lemma sized_sized_ok a b n : n <= length a -> n <= length b -> forall k i, i + k = n ->
  exists r, sized_sized_from k a b i = OK r /\ (r = true <-> skipn i (firstn n a) = skipn i (firstn n b)).
Proof.
  intros La Lb. induction k as [|k IH]; intros i E; cbn [sized_sized_from].
  - exists true. split; [reflexivity|]. rewrite !skipn_all2 by (rewrite firstn_length; lia). tauto.
  - rewrite (aget_nth a i 0%Z), (aget_nth b i 0%Z) by lia. cbn [bind]. rewrite (skip_firstn_cons a n i 0%Z), (skip_firstn_cons b n i 0%Z) by lia.
    destruct (Z.eqb_spec (nth i a 0%Z) (nth i b 0%Z)) as [->|N]; cbn [negb].
    + destruct (IH (i + 1) ltac:(lia)) as (r & -> & R). exists r. split; [reflexivity|]. rewrite R. split; [intros ->; reflexivity|intros [= Q]; exact Q].
    + exists false. split; [reflexivity|]. split; [discriminate|intros [= Q _]; contradiction].
Qed.

(** [operator==(String, SizedString)] *)
Lemma mixed_from_ok a b m : is_cstr a -> m <= length b -> forall fuel i, i <= length a -> i <= m -> m - i < fuel ->
  exists r, mixed_eq_from fuel a b m i = OK r /\
    (r = true <-> skipn i a = skipn i (firstn m b) /\ forall k, i <= k < length a -> (Z.of_nat k < char_to_size (nth k a 0))%Z).
Proof.
  intros Ca Lm. induction fuel as [|fuel IH]; intros i La Li Lf; [lia|]. cbn [mixed_eq_from]. unfold NUL.
  destruct (cget_cases a i Ca La) as [(Ea & ->)|(Ea & x & Ex & Rx & Sa)]; cbn [bind].
  - replace (Z.of_nat i <? char_to_size 0)%Z with false by (symmetry; apply Z.ltb_ge; change (char_to_size 0) with 0%Z; lia). cbn [andb].
    destruct (Nat.eqb_spec i m) as [->|N].
    + exists true. split; [reflexivity|]. split; [intros _|reflexivity]. rewrite !skipn_all2 by (rewrite ?firstn_length; lia). split; [reflexivity|]. intros; lia.
    + exists false. split; [reflexivity|]. split; [discriminate|]. intros (Q & _). exfalso. rewrite (skipn_all2 a) in Q by lia. rewrite (skip_firstn_cons b m i 0%Z) in Q by lia. discriminate.
  - rewrite Ex. cbn [bind]. assert (Nx : nth i a 0%Z = x) by (rewrite (cget_nth a i 0%Z) in Ex by exact Ea; congruence).
    destruct (Nat.ltb_spec i m) as [Lt|Ge].
    + destruct (Z.ltb_spec (Z.of_nat i) (char_to_size x)) as [Lx|Gx]; cbn [andb].
      * destruct (Z.eqb_spec x 0); [lia|]. rewrite (aget_nth b i 0%Z) by lia. cbn [bind]. rewrite Sa, (skip_firstn_cons b m i 0%Z) by lia.
        destruct (Z.eqb_spec x (nth i b 0%Z)) as [<-|N]; cbn [negb].
        -- destruct (IH (i + 1) ltac:(lia) ltac:(lia) ltac:(lia)) as (r & -> & R). exists r. split; [reflexivity|]. rewrite R. split.
           ++ intros (Q & F). split; [rewrite Q; reflexivity|]. intros k Hk. destruct (Nat.eq_dec k i) as [->|Nk]; [rewrite Nx; exact Lx|]. apply F. lia.
           ++ intros ([= Q] & F). split; [exact Q|]. intros k Hk. apply F. lia.
        -- exists false. split; [reflexivity|]. split; [discriminate|]. intros ([= Q _] & _). congruence.
      * destruct (Nat.eqb_spec i m); [lia|]. exists false. split; [reflexivity|]. split; [discriminate|]. intros (_ & F). specialize (F i ltac:(lia)). rewrite Nx in F. lia.
    + assert (i = m) as -> by lia. rewrite andb_false_r. rewrite Nat.eqb_refl. destruct (Z.eqb_spec x 0); [lia|].
      exists false. split; [reflexivity|]. split; [discriminate|]. intros (Q & _). exfalso. rewrite Sa in Q. rewrite (skipn_all2 (firstn m b)) in Q by (rewrite firstn_length; lia). discriminate.
Qed.

Lemma string_at_ok a index : is_cstr a -> forall fuel i, i <= length a -> i <= index -> length a - i < fuel ->
  string_at_from fuel a index i = OK (match nth_error a index with Some x => Value x | None => Thrown end).
Proof.
  intros Ca. induction fuel as [|fuel IH]; intros i La Li Lf; [lia|]. cbn [string_at_from]. unfold NUL.
  destruct (cget_cases a i Ca La) as [(Ea & ->)|(Ea & x & Ex & Rx & Sa)]; cbn [bind].
  - cbn [Z.eqb negb]. rewrite (proj2 (nth_error_None _ _)) by lia. reflexivity.
  - rewrite Ex. cbn [bind]. destruct (Z.eqb_spec x 0); [lia|]. cbn [negb]. destruct (Nat.eqb_spec i index) as [<-|N].
    + rewrite (nth_error_nth' a 0%Z) by exact Ea. rewrite (cget_nth a i 0%Z) in Ex by exact Ea. injection Ex as <-. reflexivity.
    + apply IH; lia.
Qed.

Lemma range_ok a : forall n i, i + n <= length a + 1 -> exists l, string_range_from n a i = OK l.
Proof.
  induction n as [|n IH]; intros i L; cbn [string_range_from]; [eauto|]. rewrite cget_nth0 by lia. cbn [bind]. destruct (IH (i + 1) ltac:(lia)) as (l & ->). cbn [bind]. eauto.
Qed.
Lemma range_UB a : forall n i, length a + 1 < i + n -> i <= length a + 1 -> string_range_from n a i = UB.
Proof.
  induction n as [|n IH]; intros i L Li; [lia|]. cbn [string_range_from]. destruct (Nat.eq_dec i (length a + 1)) as [->|N].
  - rewrite cget_UB by lia. reflexivity.
  - rewrite cget_nth0 by lia. cbn [bind]. rewrite IH by lia. reflexivity.
Qed.
