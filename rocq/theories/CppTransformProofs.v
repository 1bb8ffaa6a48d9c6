(** * Proofs about dro::IncludeTransform and dro::DefineTransformation *)
From Coq Require Import Permutation.
From Verif Require Import CBase CBaseFacts CppArrayModel CppArraySpec CppArrayProofs OwnModel OwnSpec OwnProofs CppTransformModel CppTransformSpec.

(** ** Programs *)
Lemma exec_sim {A O R V} (step : store A -> O -> res (store A * R)) (vstep : V -> O -> R -> V -> Prop) (I : store A -> V -> Prop) :
  (forall s v o r v', I s v -> vstep v o r v' -> exists s', step s o = OK (s', r) /\ I s' v') ->
  forall prog v rs v', vruns vstep v prog rs v' -> forall s, I s v -> exists s', exec step s prog = OK (s', rs) /\ I s' v'.
Proof.
  intros H prog v rs v' R0. induction R0 as [v|v o r v' t rs v'' St _ IH]; intros s Is.
  - exists s. split; [reflexivity|exact Is].
  - destruct (H _ _ _ _ _ Is St) as (s1 & E & I1). destruct (IH s1 I1) as (s2 & E2 & I2). exists s2. split; [|exact I2]. cbn [exec]. rewrite E. cbn [bind]. rewrite E2. reflexivity.
Qed.
Lemma covered_put {A} (blocks : A -> list nat) s h j o a : covered blocks s -> nth_error (st_objs s) j = Some o ->
  (forall b c, nth_error h b = Some (Some c) -> live s b \/ In b (blocks a)) ->
  (forall b c, nth_error h b = Some (Some c) -> In b (oblocks blocks o) -> In b (blocks a)) ->
  covered blocks {| st_heap := h; st_objs := replace (st_objs s) j (Some a) |}.
Proof.
  intros C Qj F G b (c & Q). cbn [st_heap st_objs] in *. pose proof (nth_lt _ _ _ Qj) as Lj.
  assert (X : In b (blocks a) -> exists j0 o0, nth_error (replace (st_objs s) j (Some a)) j0 = Some o0 /\ In b (oblocks blocks o0)).
  { intros Ib. exists j, (Some a). split; [apply nth_replace_eq; exact Lj|exact Ib]. }
  destruct (F b c Q) as [L|Ib]; [|exact (X Ib)]. destruct (C b L) as (k & p & Qp & Ip). destruct (Nat.eq_dec k j) as [->|N].
  - rewrite Qj in Qp. injection Qp as <-. exact (X (G b c Q Ip)).
  - exists k, p. split; [rewrite nth_replace_neq by auto; exact Qp|exact Ip].
Qed.

(** ** Strings *)
Definition srep (h : heap) (p : option ptr) (s : option (list Z)) : Prop :=
  match p, s with
  | None, None => True
  | Some (b, o), Some c => o = 0 /\ nth_error h b = Some (Some c)
  | _, _ => False
  end.
Lemma srep_frame h h' p s : srep h p s -> (forall b, In b (ptr_blocks [p]) -> nth_error h' b = nth_error h b) -> srep h' p s.
Proof. destruct p as [[b o]|], s as [c|]; cbn; auto. intros (-> & Q) F. split; [reflexivity|]. rewrite F by auto. exact Q. Qed.
Lemma sreps_frame h h' ps ss : Forall2 (srep h) ps ss -> (forall b, In b (ptr_blocks ps) -> nth_error h' b = nth_error h b) -> Forall2 (srep h') ps ss.
Proof.
  induction 1 as [|p s ps ss R _ IH]; intros F; [constructor|]. constructor.
  - eapply srep_frame; [exact R|]. intros b I. apply F. destruct p as [[b' o]|]; [|destruct I]. destruct I as [<-|[]]. left. reflexivity.
  - apply IH. intros b I. apply F. destruct p as [[b' o]|]; [right|]; exact I.
Qed.
Lemma sreps_live h ps ss b : Forall2 (srep h) ps ss -> In b (ptr_blocks ps) -> exists c, nth_error h b = Some (Some c).
Proof.
  induction 1 as [|p s ps ss R _ IH]; intros I; [destruct I|]. destruct p as [[b' o]|]; cbn [ptr_blocks flat_map app] in I; [|exact (IH I)].
  destruct I as [<-|I]; [|exact (IH I)]. destruct s as [c|]; [|destruct R]. destruct R as (_ & Q). eauto.
Qed.
Lemma sreps_off h ps ss b o : Forall2 (srep h) ps ss -> In (Some (b, o)) ps -> o = 0 /\ exists c, nth_error h b = Some (Some c).
Proof.
  induction 1 as [|p s ps ss R _ IH]; intros I; [destruct I|]. destruct I as [-> |I]; [|exact (IH I)]. destruct s as [c|]; [|destruct R]. destruct R as (-> & Q). eauto.
Qed.
Lemma sreps_ext h e ps ss : Forall2 (srep h) ps ss -> Forall2 (srep (h ++ e)) ps ss.
Proof. intros F. eapply sreps_frame; [exact F|]. intros b I. destruct (sreps_live _ _ _ _ F I) as (c & Q). rewrite nth_error_app1; [reflexivity|eapply nth_lt; eauto]. Qed.
Lemma srep_ext h e p s : srep h p s -> srep (h ++ e) p s.
Proof. intros R. pose proof (sreps_ext h e [p] [s] (Forall2_cons _ _ R (Forall2_nil _))) as F. inversion F; assumption. Qed.
Lemma ptr_blocks_app a b : ptr_blocks (a ++ b) = ptr_blocks a ++ ptr_blocks b.
Proof. apply flat_map_app. Qed.
Lemma sreps_nones h ps ss : Forall2 (srep h) ps ss -> Forall (fun s => s = None) ss -> ptr_blocks ps = [].
Proof. induction 1 as [|p s ps ss R _ IH]; intros F; [reflexivity|]. inversion F; subst. destruct p as [[b o]|]; [destruct R|]. cbn. apply IH. assumption. Qed.

Lemma alloc_ok : forall ss h, exists ext ps, alloc_strings h ss = (h ++ ext, ps) /\ Forall2 (srep (h ++ ext)) ps ss /\
  (forall b, In b (ptr_blocks ps) -> length h <= b) /\ NoDup (ptr_blocks ps) /\ (forall b x, nth_error ext b = Some x -> In (length h + b) (ptr_blocks ps)).
Proof.
  induction ss as [|s ss IH]; intros h.
  - exists [], []. rewrite app_nil_r. split; [reflexivity|]. split; [constructor|]. split; [intros b []|]. split; [constructor|]. intros [|b]; discriminate.
  - destruct s as [c|].
    + destruct (IH (h ++ [Some c])) as (ext & ps & E & R & F & D & C). exists (Some c :: ext), (Some (length h, 0) :: ps).
      cbn [alloc_strings]. unfold h_malloc. rewrite E. rewrite <- app_assoc in *. cbn [app] in *. rewrite app_length in F, C. cbn [length] in F, C.
      split; [reflexivity|]. cbn [ptr_blocks flat_map app]. fold (ptr_blocks ps). split; [|split; [|split]].
      * constructor; [|exact R]. cbn. split; [reflexivity|]. rewrite nth_error_app2, Nat.sub_diag by lia. reflexivity.
      * intros b [<-|I]; [lia|]. apply F in I. lia.
      * constructor; [|exact D]. intros I. apply F in I. lia.
      * intros [|b] y Q; [left; lia|]. right. cbn [nth_error] in Q. apply C in Q. replace (length h + S b) with (length h + 1 + b) by lia. exact Q.
    + destruct (IH h) as (ext & ps & E & R & F & D & C). exists ext, (None :: ps). cbn [alloc_strings]. rewrite E. split; [reflexivity|]. split; [constructor; [exact Logic.I|exact R]|]. cbn [ptr_blocks flat_map app]. auto.
Qed.
Lemma alloc_app : forall a h b, alloc_strings h (a ++ b) = let '(h, p) := alloc_strings h a in let '(h, q) := alloc_strings h b in (h, p ++ q).
Proof.
  induction a as [|s a IH]; intros h b; [cbn [app alloc_strings]; destruct (alloc_strings h b); reflexivity|]. cbn [app alloc_strings].
  destruct s as [c|]; unfold h_malloc; rewrite IH.
  - destruct (alloc_strings (h ++ [Some c]) a) as [h1 p1]. destruct (alloc_strings h1 b) as [h2 p2]. reflexivity.
  - destruct (alloc_strings h a) as [h1 p1]. destruct (alloc_strings h1 b) as [h2 p2]. reflexivity.
Qed.
Lemma alloc_prefix ss h : exists e, fst (alloc_strings h ss) = h ++ e.
Proof. destruct (alloc_ok ss h) as (ext & ps & E & _). rewrite E. exists ext. reflexivity. Qed.

Lemma strdup_one h p c : srep h p (Some c) -> strdup h p = OK (h ++ [Some c], Some (length h, 0)).
Proof. destruct p as [[b o]|]; [|intros []]. intros (-> & Q). unfold strdup. rewrite (proj2 (aget_OK _ _ _) Q). reflexivity. Qed.
Lemma read_one h p c : srep h p (Some c) -> str_read h p = OK c.
Proof. destruct p as [[b o]|]; [|intros []]. intros (-> & Q). unfold str_read. rewrite (proj2 (aget_OK _ _ _) Q). reflexivity. Qed.
Lemma strdup_alloc : forall ps ss h, Forall2 (srep h) ps ss -> strdup_opts h ps = OK (alloc_strings h ss).
Proof.
  intros ps ss h F. revert h F. revert ss. induction ps as [|p ps IH]; intros ss h F; inversion F as [|? s ? ss' R F']; subst; [reflexivity|].
  cbn [strdup_opts alloc_strings]. destruct p as [[b o]|].
  - destruct s as [c|]; [|destruct R]. unfold strdup_opt. rewrite (strdup_one _ _ _ R). cbn [bind]. unfold h_malloc.
    rewrite (IH ss') by (apply sreps_ext; exact F'). cbn [bind]. destruct (alloc_strings (h ++ [Some c]) ss'). reflexivity.
  - destruct s as [c|]; [destruct R|]. cbn [strdup_opt bind]. rewrite (IH ss') by exact F'. cbn [bind]. destruct (alloc_strings h ss'). reflexivity.
Qed.

(** ** IncludeTransform *)
Definition iblocks (a : itf) : list nat := ptr_blocks (i_str a).
Definition irep (h : heap) (a : itf) (w : itv) : Prop :=
  i_num a = v_numbers w /\ Forall2 (srep h) (i_str a) (v_strings w) /\ length (v_strings w) = 4 /\ NoDup (iblocks a).
Lemma irep_frame h h' a w : irep h a w -> (forall b, In b (iblocks a) -> nth_error h' b = nth_error h b) -> irep h' a w.
Proof. intros (N & F & L & D) H. split; [exact N|]. split; [eapply sreps_frame; eauto|]. auto. Qed.
Lemma irep_live h a w b : irep h a w -> In b (iblocks a) -> exists c, nth_error h b = Some (Some c).
Proof. intros (N & F & _) I. eapply sreps_live; eauto. Qed.
Lemma irep_zero h : irep h it_zero it_blank.
Proof. split; [reflexivity|]. split; [repeat constructor|]. split; [reflexivity|constructor]. Qed.
Notation iinv := (inv iblocks irep).
Notation icov := (covered iblocks).

Lemma it_parse_ok h ss ns : length ss = 4 -> exists ext a, it_parse h ss ns = (h ++ ext, a) /\ irep (h ++ ext) a {| v_strings := ss; v_numbers := ns |} /\
  (forall b, In b (iblocks a) -> length h <= b) /\ (forall b x, nth_error ext b = Some x -> In (length h + b) (iblocks a)).
Proof.
  intros L. destruct (alloc_ok ss h) as (ext & ps & E & R & F & D & C). unfold it_parse. rewrite E. eexists _, _. split; [reflexivity|]. split; [|split; assumption].
  split; [reflexivity|]. split; [exact R|]. split; [exact L|exact D].
Qed.
Lemma it_copy_ok h r w : irep h r w -> v_string w FILE_NAME <> None -> it_copy h r = OK (it_parse h (v_strings w) (v_numbers w)).
Proof.
  intros (N & F & L & D) Fn. destruct r as [ps ns], w as [ss ns']. cbn [i_num i_str v_strings v_numbers] in *. subst ns'.
  destruct ss as [|s1 [|s2 [|s3 [|s4 [|]]]]]; try discriminate. pose proof F as F0. inversion F as [|p1 ? q1 ? R1 F1]; subst. inversion F1 as [|p2 ? q2 ? R2 F2]; subst. inversion F2 as [|p3 ? q3 ? R3 F3]; subst. inversion F3 as [|p4 ? q4 ? R4 F4]; subst. inversion F4; subst.
  pose proof (strdup_alloc _ _ _ F0) as Q. unfold it_parse. cbn [v_strings v_numbers]. remember (alloc_strings h [s1; s2; s3; s4]) as X eqn:EX. clear EX. unfold v_string in Fn. cbn [v_strings nth FILE_NAME] in Fn. destruct s1 as [c|]; [|congruence]. destruct p1 as [[b1 o1]|]; [|destruct R1].
  cbn [strdup_opts] in Q. change (strdup_opt h (Some (b1, o1))) with (strdup h (Some (b1, o1))) in Q.
  unfold it_copy, i_ptr. cbn [i_str nth FILE_NAME PREFIX SUFFIX FCTTEM]. destruct (strdup h (Some (b1, o1))) as [[h1 r1]| | ]; try discriminate. cbn [bind] in *.
  destruct (strdup_opt h1 p2) as [[h2 r2]| | ]; try discriminate. cbn [bind] in *. destruct (strdup_opt h2 p3) as [[h3 r3]| | ]; try discriminate. cbn [bind] in *.
  destruct (strdup_opt h3 p4) as [[h4 r4]| | ]; try discriminate. cbn [bind] in *. destruct X as [hx px]. injection Q as <- <-. reflexivity.
Qed.

Definition overlay (ps qs : list (option ptr)) : list (option ptr) := map (fun pq => match fst pq with Some p => Some p | None => snd pq end) (combine ps qs).
Lemma overlay_in ps : forall qs b, In b (ptr_blocks (overlay ps qs)) -> In b (ptr_blocks ps) \/ In b (ptr_blocks qs).
Proof.
  induction ps as [|p ps IH]; intros [|q qs] b I; try destruct I. unfold overlay in I. cbn [combine map fst snd] in I. fold (overlay ps qs) in I.
  change (p :: ps) with ([p] ++ ps). change (q :: qs) with ([q] ++ qs). change (?x :: overlay ps qs) with ([x] ++ overlay ps qs) in I. rewrite ptr_blocks_app in *. rewrite ptr_blocks_app. rewrite in_app_iff in *.
  rewrite in_app_iff. destruct I as [I|I]; [|apply IH in I; tauto]. destruct p; auto.
Qed.
Lemma overlay_nodup ps n : forall qs, NoDup (ptr_blocks ps) -> NoDup (ptr_blocks qs) -> (forall b, In b (ptr_blocks ps) -> n <= b) -> (forall b, In b (ptr_blocks qs) -> b < n) -> NoDup (ptr_blocks (overlay ps qs)).
Proof.
  induction ps as [|p ps IH]; intros [|q qs] D1 D2 G L; try constructor. unfold overlay. cbn [combine map fst snd]. fold (overlay ps qs).
  assert (Tl : forall (x : option ptr) l b, In b (ptr_blocks l) -> In b (ptr_blocks (x :: l))).
  { intros x l b I. change (x :: l) with ([x] ++ l). rewrite ptr_blocks_app. apply in_app_iff. auto. }
  assert (T : NoDup (ptr_blocks (overlay ps qs))).
  { apply IH.
    - destruct p as [[b o]|]; [inversion D1; assumption|exact D1].
    - destruct q as [[b o]|]; [inversion D2; assumption|exact D2].
    - intros b I. apply G. apply Tl. exact I.
    - intros b I. apply L. apply Tl. exact I. }
  assert (X : forall b o, (p = Some (b, o) \/ (p = None /\ q = Some (b, o))) -> ~ In b (ptr_blocks (overlay ps qs))).
  { intros b o Q I. apply overlay_in in I. destruct Q as [-> |(-> & ->)].
    - destruct I as [I|I].
      + inversion D1; contradiction.
      + specialize (G b (or_introl eq_refl)). specialize (L b (Tl _ _ _ I)). lia.
    - destruct I as [I|I].
      + specialize (L b (or_introl eq_refl)). specialize (G b (Tl _ _ _ I)). lia.
      + inversion D2; contradiction. }
  assert (Hd : forall (x : option ptr) l, NoDup (ptr_blocks l) -> (forall b o, x = Some (b, o) -> ~ In b (ptr_blocks l)) -> NoDup (ptr_blocks (x :: l))).
  { intros [[b o]|] l Dl Nl; [constructor; [apply (Nl b o); reflexivity|exact Dl]|exact Dl]. }
  apply Hd; [exact T|]. intros b o Q. apply (X b o). destruct p as [[b' o']|]; auto.
Qed.
Lemma overlay_rep h ps qs ss ts : Forall2 (srep h) ps ss -> Forall2 (srep h) qs ts -> Forall2 (srep h) (overlay ps qs) (with_strings ss ts).
Proof.
  intros F. revert qs ts. induction F as [|p s ps ss R _ IH]; intros qs ts G; [constructor|]. destruct G as [|q t qs ts R' G]; [constructor|].
  unfold overlay, with_strings. cbn [combine map fst snd]. constructor; [|apply IH; exact G]. destruct p as [[b o]|], s as [c|]; try destruct R; auto; exact (conj H H0) || auto.
Qed.

Lemma F2_length {A B} (R : A -> B -> Prop) l m : Forall2 R l m -> length l = length m.
Proof. induction 1; cbn; congruence. Qed.
Lemma nodup_app {A} (l1 l2 : list A) : NoDup (l1 ++ l2) -> NoDup l1 /\ NoDup l2 /\ forall x, In x l1 -> ~ In x l2.
Proof.
  induction l1 as [|x l IH]; intros D; [split; [constructor|split; [exact D|intros x []]]|]. inversion D as [|? ? NI D']; subst. destruct (IH D') as (D1 & D2 & X).
  split; [constructor; [intros I; apply NI; apply in_app_iff; auto|exact D1]|]. split; [exact D2|]. intros y [<-|I]; [intros I; apply NI; apply in_app_iff; auto|apply X; exact I].
Qed.
Lemma nodup_join {A} (l1 l2 : list A) : NoDup l1 -> NoDup l2 -> (forall x, In x l1 -> ~ In x l2) -> NoDup (l1 ++ l2).
Proof.
  induction 1 as [|x l NI D IH]; intros D2 X; [exact D2|]. cbn [app]. constructor; [|apply IH; [exact D2|intros y Iy; apply X; right; exact Iy]].
  rewrite in_app_iff. intros [Q|Q]; [exact (NI Q)|exact (X x (or_introl eq_refl) Q)].
Qed.
Lemma it_destroy_ok h a w : irep h a w -> exists h', it_destroy h a = OK h' /\
  (forall b, ~ In b (iblocks a) -> nth_error h' b = nth_error h b) /\
  (forall b, In b (iblocks a) -> v_string w FCTTEM = None -> nth_error h' b = Some None) /\
  (forall b o, i_ptr a FCTTEM = Some (b, o) -> nth_error h' b = nth_error h b).
Proof.
  intros (N & F & L & D). unfold iblocks in *. destruct a as [ps ns], w as [ss ns']. cbn [i_num i_str v_strings v_numbers] in *.
  destruct ss as [|s1 [|s2 [|s3 [|s4 [|]]]]]; try discriminate. inversion F as [|p1 ? q1 ? R1 F1]; subst. inversion F1 as [|p2 ? q2 ? R2 F2]; subst. inversion F2 as [|p3 ? q3 ? R3 F3]; subst. inversion F3 as [|p4 ? q4 ? R4 F4]; subst. inversion F4; subst.
  unfold it_destroy, i_ptr, v_string. cbn [i_str v_strings nth FILE_NAME PREFIX SUFFIX FCTTEM].
  change [p1; p2; p3; p4] with ([p1; p2; p3] ++ [p4]) in *. rewrite ptr_blocks_app in *.
  assert (F' : Forall2 (srep h) [p1; p2; p3] [s1; s2; s3]) by (repeat constructor; assumption).
  destruct (free_all_ok [p1; p2; p3] h) as (h' & E & _ & G & K).
  - exact (proj1 (nodup_app _ _ D)).
  - intros b o I. exact (sreps_off _ _ _ _ _ F' I).
  - exists h'. split; [exact E|]. split; [|split].
    + intros b NI. apply K. intros I. apply NI. apply in_app_iff. auto.
    + intros b I Q. subst s4. destruct p4 as [[b4 o4]|]; [destruct R4|]. cbn [ptr_blocks flat_map] in I. rewrite app_nil_r in I. apply G. exact I.
    + intros b o Q. subst p4. apply K. intros I. apply (proj2 (proj2 (nodup_app _ _ D)) b I). left. reflexivity.
Qed.

Lemma put_ok {A} (s : store A) h j o w : nth_error (st_objs s) j = Some w -> put_obj s h j o = OK {| st_heap := h; st_objs := replace (st_objs s) j o |}.
Proof. intros Q. unfold put_obj. rewrite aset_replace by (eapply nth_lt; eauto). reflexivity. Qed.

Lemma istep_ok s v o r v' : iinv s v -> ivstep v o r v' -> copies_have_names v o ->
  exists s', istep s o = OK (s', r) /\ iinv s' v' /\ (icov s -> it_no_overwrite v o -> icov s').
Proof.
  intros I St Cn. destruct St as [|ss ns L|j w N|j w N|i j w x N Ni Ne|i j w x N Ni|j w ss ns N L|j f w c N Q|j w N|j w N]; cbn [istep].
  - eexists. split; [reflexivity|]. split.
    + rewrite <- (app_nil_r (st_heap s)). apply (inv_fresh iblocks irep irep_frame irep_live); auto; try apply irep_zero; try (intros b []).
    + intros C _. rewrite <- (app_nil_r (st_heap s)). apply covered_fresh; [exact C|]. intros [|b]; discriminate.
  - destruct (it_parse_ok (st_heap s) ss ns L) as (ext & a & -> & R & Fr & C). eexists. split; [reflexivity|]. split; [apply (inv_fresh iblocks irep irep_frame irep_live); auto|].
    intros Cv _. apply covered_fresh; [exact Cv|]. intros b c Q. eapply C. exact Q.
  - destruct (inv_get iblocks irep s v j w I N) as (a & Qa & Ra & ->). cbn [bind it_move]. rewrite (put_ok _ _ _ _ _ Qa). cbn [bind]. unfold new_obj. cbn [st_heap st_objs]. eexists. split; [reflexivity|]. split.
    + apply (inv_move_new iblocks irep irep_frame irep_live); auto; try reflexivity; try apply irep_zero.
    + intros C _. apply covered_move_new; auto.
  - destruct (inv_get iblocks irep s v j w I N) as (a & Qa & Ra & ->). cbn [bind]. rewrite (it_copy_ok _ _ _ Ra (Cn j w (or_introl eq_refl) N)). cbn [bind].
    destruct (it_parse_ok (st_heap s) (v_strings w) (v_numbers w) (proj1 (proj2 (proj2 Ra)))) as (ext & a' & -> & R & Fr & C). destruct w as [ws wn]. eexists. split; [reflexivity|]. split; [apply (inv_fresh iblocks irep irep_frame irep_live); auto|].
    intros Cv _. apply covered_fresh; [exact Cv|]. intros b c Q. eapply C. exact Q.
  - destruct (inv_get iblocks irep s v j w I N) as (a & Qa & Ra & ->). cbn [bind]. destruct (inv_get iblocks irep s v i x I Ni) as (d & Qd & Rd & ->). cbn [bind it_move]. rewrite (put_ok _ _ _ _ _ Qd). cbn [bind].
    rewrite (put_ok _ _ _ _ (Some a)) by (cbn [st_objs]; rewrite nth_replace_neq by auto; exact Qa). cbn [bind st_heap st_objs]. eexists. split; [reflexivity|]. split.
    + apply (inv_move_to iblocks irep irep_frame irep_live); auto; try (eapply nth_lt; eauto; fail); try reflexivity; try apply irep_zero.
    + intros C (H & _). eapply covered_move_to; eauto. cbn [oblocks]. destruct Rd as (_ & F & _). unfold iblocks. eapply sreps_nones; [exact F|]. rewrite (H i j x (or_introl eq_refl) Ni). repeat constructor.
  - destruct (inv_get iblocks irep s v j w I N) as (a & Qa & Ra & ->). cbn [bind]. destruct (inv_get iblocks irep s v i x I Ni) as (d & Qd & Rd & ->). cbn [bind].
    rewrite (it_copy_ok _ _ _ Ra (Cn j w (or_intror (ex_intro _ i eq_refl)) N)). cbn [bind].
    destruct (it_parse_ok (st_heap s) (v_strings w) (v_numbers w) (proj1 (proj2 (proj2 Ra)))) as (ext & a' & -> & R & Fr & C). destruct w as [ws wn]. cbn [v_strings v_numbers] in *. rewrite (put_ok _ _ _ _ _ Qd). cbn [bind]. eexists. split; [reflexivity|]. split.
    + apply (inv_fresh_put iblocks irep irep_frame irep_live); auto. eapply nth_lt; eauto.
    + intros Cv (H & _). eapply covered_fresh_put; eauto. cbn [oblocks]. destruct Rd as (_ & F & _). unfold iblocks. eapply sreps_nones; [exact F|]. rewrite (H i j x (or_intror eq_refl) Ni). repeat constructor.
  - destruct (inv_get iblocks irep s v j w I N) as (a & Qa & Ra & ->). cbn [bind]. unfold it_card. destruct (alloc_ok ss (st_heap s)) as (ext & ps & E & R & Fr & D & C). rewrite E. cbn [bind]. rewrite (put_ok _ _ _ _ _ Qa). cbn [bind].
    eexists. split; [reflexivity|]. change (map _ (combine ps (i_str a))) with (overlay ps (i_str a)). pose proof Ra as (Nn & F & Lw & Da).
    assert (Old : forall b, In b (ptr_blocks (i_str a)) -> b < length (st_heap s)) by (intros b Ib; destruct (sreps_live _ _ _ _ F Ib) as (c & Q); eapply nth_lt; eauto).
    split.
    + apply (inv_put iblocks irep irep_frame irep_live); auto.
      * eapply nth_lt; eauto.
      * intros i p b Ne Qp Ib. apply nth_error_app1. eapply (inv_block_lt iblocks irep irep_frame irep_live); eauto.
      * split; [reflexivity|]. cbn [i_str v_strings]. split; [apply overlay_rep; [exact R|apply sreps_ext; exact F]|]. split.
        -- cbn [v_strings]. unfold with_strings. rewrite map_length, combine_length. lia.
        -- unfold iblocks. cbn [i_str]. apply (overlay_nodup _ (length (st_heap s))); auto.
      * intros b i p Ne Ib Qp Ip. unfold iblocks in Ib. cbn [oblocks i_str] in Ib. apply overlay_in in Ib. destruct Ib as [Ib|Ib].
        -- apply Fr in Ib. pose proof (inv_block_lt iblocks irep irep_frame irep_live _ _ _ _ _ I Qp Ip). lia.
        -- destruct I as (_ & _ & Dj). exact (Dj i j p (Some a) b Ne Qp Qa Ip Ib).
    + intros Cv (_ & H & _).
      assert (Keep : forall b, In b (ptr_blocks ps) \/ In b (ptr_blocks (i_str a)) -> In b (ptr_blocks (overlay ps (i_str a)))).
      { assert (X : forall f, nth f ss None <> None -> nth f (v_strings w) None = None) by (intros f Q; exact (H j ss ns w f eq_refl N Q)).
        assert (Ll : length ps = length (i_str a)) by (rewrite (F2_length _ _ _ R), (F2_length _ _ _ F); congruence).
        clear - R F X Ll. revert R F X Ll. generalize (i_str a) (v_strings w) (st_heap s ++ ext) (st_heap s). intros qs ts h h0 R F. revert R. revert ps ss.
        induction F as [|q t qs ts Rq F IH]; intros ps ss R X Ll b Q.
        - destruct ps; [|discriminate]. destruct Q as [[]|[]].
        - destruct R as [|p c0 ps ss Rp R]; [discriminate|]. unfold overlay. cbn [combine map fst snd]. fold (overlay ps qs).
          assert (IH' := IH ps ss R (fun f => X (S f)) ltac:(cbn in Ll; lia) b). specialize (X 0). cbn [nth] in X.
          destruct p as [[bp op]|], q as [[bq oq]|]; cbn [ptr_blocks flat_map app In] in *; unfold ptr_blocks in *; try tauto.
          destruct c0; [|destruct Rp]. destruct t; [|destruct Rq]. specialize (X ltac:(discriminate)). discriminate. }
      eapply covered_put; eauto.
      * intros b c Q. unfold iblocks. cbn [i_str]. destruct (Nat.lt_ge_cases b (length (st_heap s))) as [Lb|Lb].
        -- left. exists c. rewrite nth_error_app1 in Q by exact Lb. exact Q.
        -- right. apply Keep. left. rewrite nth_error_app2 in Q by exact Lb. apply C in Q. replace (length (st_heap s) + (b - length (st_heap s))) with b in Q by lia. exact Q.
  - destruct (inv_get iblocks irep s v j w I N) as (a & Qa & Ra & ->). cbn [bind]. destruct Ra as (_ & F & _).
    assert (X : srep (st_heap s) (i_ptr a f) (Some c)).
    { unfold i_ptr, v_string in *. rewrite <- Q. clear - F. revert f. induction F; intros [|f]; cbn; auto. }
    rewrite (read_one _ _ _ X). cbn [bind]. exists s. auto.
  - destruct (inv_get iblocks irep s v j w I N) as (a & Qa & Ra & ->). cbn [bind]. destruct Ra as (-> & _). exists s. auto.
  - destruct (inv_get iblocks irep s v j w I N) as (a & Qa & Ra & ->). cbn [bind]. destruct (it_destroy_ok _ _ _ Ra) as (h & -> & G & K & _). cbn [bind]. rewrite (put_ok _ _ _ _ _ Qa). cbn [bind]. eexists. split; [reflexivity|]. split.
    + apply (inv_destroy iblocks irep irep_frame irep_live s v j a h); auto.
    + intros C (_ & _ & H). eapply covered_destroy; eauto.
Qed.

(** ** DefineTransformation *)
Definition from_mem {A} (m : mem A) (d : A) : A := match m with Known a => a | Unknown => d end.
Definition dptrs (a : dtf) : list (option ptr) := from_mem (d_names a) [] ++ [from_mem (d_options a) None; from_mem (d_title a) None].
Definition dblocks (a : dtf) : list nat := ptr_blocks (dptrs a).
Definition names_str (os : list (list Z * list Z)) : list (option (list Z)) := map (fun o => Some (fst o)) os.
Definition opts_str (os : list (list Z * list Z)) : option (list Z) := match os with [] => None | _ => Some (concat (map snd os)) end.
Definition drep (h : heap) (a : dtf) (w : dtv) : Prop :=
  d_tranid a = Known (v_id w) /\ (exists t p ns, d_title a = Known t /\ d_options a = Known p /\ d_names a = Known ns /\
    srep h t (v_title w) /\ srep h p (opts_str (v_options w)) /\ Forall2 (srep h) ns (names_str (v_options w))) /\
  Forall seven (v_options w) /\ NoDup (dblocks a).
Lemma dptrs_known i t p ns : dptrs {| d_tranid := i; d_title := Known t; d_options := Known p; d_names := Known ns |} = ns ++ [p; t].
Proof. reflexivity. Qed.
Lemma drep_sreps h a w : drep h a w -> Forall2 (srep h) (dptrs a) (names_str (v_options w) ++ [opts_str (v_options w); v_title w]).
Proof. intros (_ & (t & p & ns & Et & Ep & En & Rt & Rp & Rn) & _). unfold dptrs. rewrite Et, Ep, En. cbn [from_mem]. apply Forall2_app; [exact Rn|]. repeat constructor; assumption. Qed.
Lemma in_dblocks a t p ns b : d_title a = Known t -> d_options a = Known p -> d_names a = Known ns ->
  (In b (dblocks a) <-> In b (ptr_blocks ns) \/ In b (ptr_blocks [p]) \/ In b (ptr_blocks [t])).
Proof. intros Et Ep En. unfold dblocks, dptrs. rewrite Et, Ep, En. cbn [from_mem]. change [p; t] with ([p] ++ [t]). rewrite !ptr_blocks_app, !in_app_iff. tauto. Qed.
Lemma drep_frame h h' a w : drep h a w -> (forall b, In b (dblocks a) -> nth_error h' b = nth_error h b) -> drep h' a w.
Proof.
  intros R H. destruct R as (I & (t & p & ns & Et & Ep & En & Rt & Rp & Rn) & S7 & D).
  split; [exact I|]. split; [|split; assumption]. exists t, p, ns. repeat (split; [assumption|]).
  pose proof (fun b => in_dblocks a t p ns b Et Ep En) as X.
  split; [eapply srep_frame; [exact Rt|]; intros b Ib; apply H; apply X; auto|]. split; [eapply srep_frame; [exact Rp|]; intros b Ib; apply H; apply X; auto|].
  eapply sreps_frame; [exact Rn|]; intros b Ib; apply H; apply X; auto.
Qed.
Lemma drep_live h a w b : drep h a w -> In b (dblocks a) -> exists c, nth_error h b = Some (Some c).
Proof. intros R I. eapply sreps_live; [apply drep_sreps; exact R|exact I]. Qed.
Lemma drep_zero h : drep h dt_zero dt_blank.
Proof. split; [reflexivity|]. split; [exists None, None, []; repeat split; constructor|]. split; constructor. Qed.
Notation dinv := (inv dblocks drep).
Notation dcov := (covered dblocks).

(** An object whose three members are newly allocated, in any order. *)
Lemma drep_fresh h id w t p ns : v_id w = id -> Forall seven (v_options w) -> srep h t (v_title w) -> srep h p (opts_str (v_options w)) ->
  Forall2 (srep h) ns (names_str (v_options w)) -> NoDup (ptr_blocks (t :: p :: ns)) ->
  drep h {| d_tranid := Known id; d_title := Known t; d_options := Known p; d_names := Known ns |} w.
Proof.
  intros <- S7 Rt Rp Rn D. split; [reflexivity|]. split; [exists t, p, ns; auto 10|]. split; [exact S7|]. unfold dblocks. rewrite dptrs_known.
  eapply Permutation_NoDup; [|exact D]. apply Permutation_flat_map. change (t :: p :: ns) with ([t; p] ++ ns). rewrite Permutation_app_comm. apply Permutation_app_head. apply perm_swap.
Qed.
Lemma fresh_blocks i t p ns b : In b (dblocks {| d_tranid := i; d_title := Known t; d_options := Known p; d_names := Known ns |}) <-> In b (ptr_blocks (t :: p :: ns)).
Proof. rewrite (in_dblocks _ t p ns) by reflexivity. change (t :: p :: ns) with ([t] ++ [p] ++ ns). rewrite !ptr_blocks_app, !in_app_iff. tauto. Qed.

Lemma dt_parse_ok h id ti os : Forall seven os -> exists ext a, dt_parse h id ti os = (h ++ ext, a) /\ drep (h ++ ext) a {| v_id := id; v_title := ti; v_options := os |} /\
  (forall b, In b (dblocks a) -> length h <= b) /\ (forall b x, nth_error ext b = Some x -> In (length h + b) (dblocks a)).
Proof.
  intros S7. destruct (alloc_ok ([ti] ++ names_str os ++ [opts_str os]) h) as (ext & ps & E & R & F & D & C). unfold dt_parse. fold (names_str os).
  rewrite alloc_app in E. destruct (alloc_strings h [ti]) as [h1 p1] eqn:E1. rewrite alloc_app in E. destruct (alloc_strings h1 (names_str os)) as [h2 ns] eqn:E2.
  assert (Q : (match os with [] => (h2, None) | _ => let '(h0, p) := h_malloc h2 (concat (map snd os)) in (h0, Some p) end) = (fst (alloc_strings h2 [opts_str os]), nth 0 (snd (alloc_strings h2 [opts_str os])) None))
    by (destruct os; reflexivity). rewrite Q. clear Q.
  destruct (alloc_strings h2 [opts_str os]) as [h3 p3] eqn:E3. cbn [fst snd]. cbv beta iota in E. injection E as -> <-.
  apply Forall2_app_inv_r in R. destruct R as (x1 & x2 & R1 & R2 & Eq). apply Forall2_app_inv_r in R2. destruct R2 as (x3 & x4 & R3 & R4 & ->).
  inversion R1 as [|t ? ? ? Rt Rx]; subst. inversion Rx; subst. inversion R4 as [|p ? ? ? Rp Ry]; subst. inversion Ry; subst.
  assert (L1 : length p1 = 1) by (destruct ti; cbn in E1; injection E1 as _ <-; reflexivity). destruct p1 as [|t' [|]]; try discriminate. cbn [app] in Eq. injection Eq as -> Eq.
  assert (L3 : length p3 = 1) by (destruct (opts_str os); cbn in E3; injection E3 as _ <-; reflexivity). destruct p3 as [|p' [|]]; try discriminate. apply app_inj_tail in Eq as [-> ->].
  cbn [nth]. assert (Pm : Permutation ([t] ++ x3 ++ [p]) (t :: p :: x3)) by (cbn [app]; apply perm_skip; rewrite Permutation_app_comm; reflexivity).
  eexists _, _. split; [reflexivity|]. split; [|split].
  - apply drep_fresh; auto. eapply Permutation_NoDup; [apply Permutation_flat_map; exact Pm|exact D].
  - intros b I. apply fresh_blocks in I. apply F. eapply Permutation_in; [apply Permutation_flat_map; symmetry; exact Pm|exact I].
  - intros b x Q. apply fresh_blocks. eapply Permutation_in; [apply Permutation_flat_map; exact Pm|]. eapply C. exact Q.
Qed.

Lemma alloc_cons h s ss : alloc_strings h (s :: ss) = let '(h1, p) := match s with None => (h, None) | Some c => (h ++ [Some c], Some (length h, 0)) end in let '(h2, ps) := alloc_strings h1 ss in (h2, p :: ps).
Proof. destruct s; reflexivity. Qed.
Lemma dt_copy_ok h a r w : drep h r w -> (v_title w = None -> d_title a = Known None) -> (v_options w = [] -> d_options a = Known None /\ d_names a = Known []) ->
  exists ext t p ns, dt_copy h a r = OK (h ++ ext, {| d_tranid := Known (v_id w); d_title := Known t; d_options := Known p; d_names := Known ns |}) /\
    alloc_strings h (v_title w :: opts_str (v_options w) :: names_str (v_options w)) = (h ++ ext, t :: p :: ns).
Proof.
  intros (I & (t & p & ns & Et & Ep & En & Rt & Rp & Rn) & S7 & D) Kt Ko. unfold dt_copy. rewrite I, Et, Ep, En. cbn [known bind].
  destruct (alloc_ok (v_title w :: opts_str (v_options w) :: names_str (v_options w)) h) as (ext & ps & E & R & _).
  inversion R as [|t' ? ps' ? _ R']; subst. inversion R' as [|p' ? ns' ? _ _]; subst. exists ext, t', p', ns'. split; [|exact E]. revert E. rewrite !alloc_cons.
  assert (X : exists e1, (match v_title w with Some c => (h ++ [Some c], Some (length h, 0)) | None => (h, None) end) = (h ++ e1, fst (match v_title w with Some c => (Some (length h, 0), 0) | None => (None, 0) end)) /\
     (match t with Some _ => do ' (h0, q) <- strdup h t; OK (h0, Known q) | None => OK (h, d_title a) end) = OK (h ++ e1, Known (fst (match v_title w with Some c => (Some (length h, 0), 0) | None => (None, 0) end)))).
  { destruct (v_title w) as [c|]; [exists [Some c]|exists []; rewrite app_nil_r].
    - split; [reflexivity|]. rewrite (strdup_one _ _ _ Rt). destruct t as [[b o]|]; [reflexivity|destruct Rt].
    - split; [reflexivity|]. destruct t as [[b o]|]; [destruct Rt|]. rewrite (Kt eq_refl). reflexivity. }
  destruct X as (e1 & -> & ->). cbn [bind]. generalize (fst (match v_title w with Some c => (Some (length h, 0), 0) | None => (None, 0) end)) as t1. intros t1.
  apply (srep_ext _ e1) in Rp. apply (sreps_ext _ e1) in Rn. destruct (v_options w) as [|o os] eqn:Eo.
  - cbn [opts_str names_str map] in *. destruct p as [[b o]|]; [destruct Rp|]. inversion Rn; subst. destruct (Ko eq_refl) as (-> & ->). cbn [alloc_strings]. intros E. injection E as <- <- <- <-. reflexivity.
  - cbn [opts_str] in *. destruct p as [[b o1]|]; [|destruct Rp]. assert (Nn : exists n nr, ns = n :: nr) by (inversion Rn; eauto). destruct Nn as (n & nr & ->).
    rewrite (read_one _ _ _ Rp). cbn [bind]. rewrite alloc_cons. unfold h_malloc. rewrite (strdup_alloc _ _ _ (sreps_ext _ [Some (concat (map snd (o :: os)))] _ _ Rn)). cbn [bind].
    destruct (alloc_strings ((h ++ e1) ++ [Some (concat (map snd (o :: os)))]) (names_str (o :: os))) as [h2 ns2]. intros E. injection E as <- <- <- <-. reflexivity.
Qed.

Lemma dt_destroy_ok h a w : drep h a w -> exists h', dt_destroy h a = OK h' /\
  (forall b, ~ In b (dblocks a) -> nth_error h' b = nth_error h b) /\ (forall b, In b (dblocks a) -> nth_error h' b = Some None).
Proof.
  intros R. destruct (free_all_ok (dptrs a) h) as (h' & E & _ & F & G).
  - exact (proj2 (proj2 (proj2 R))).
  - intros b o I. eapply sreps_off; [apply drep_sreps; exact R|exact I].
  - exists h'. split; [|split; [exact G|exact F]]. destruct R as (I & (t & p & ns & Et & Ep & En & Rt & Rp & Rn) & S7 & D).
    unfold dt_destroy, dptrs in *. rewrite Et, Ep, En in *. cbn [known bind from_mem] in *.
    assert (N : names_of h p ns = OK ns).
    { unfold names_of. destruct ns as [|n ns]; [reflexivity|]. destruct (v_options w) as [|o os]; [inversion Rn|]. cbn [opts_str] in Rp. rewrite (read_one _ _ _ Rp). reflexivity. }
    rewrite N. cbn [bind].
    assert (X : forall l h0, h_free_all h0 (l ++ [p; t]) = do h <- h_free_all h0 l; do h <- h_free_opt h p; h_free_opt h t).
    { induction l as [|q l IH]; intros h0; cbn [app h_free_all bind].
      - destruct (h_free_opt h0 p) as [h1| | ]; cbn [bind]; [|reflexivity|reflexivity]. destruct (h_free_opt h1 t); reflexivity.
      - destruct (h_free_opt h0 q); cbn [bind]; [apply IH|reflexivity|reflexivity]. }
    rewrite X in E. exact E.
Qed.

Lemma seven_nth os k n ps : Forall seven os -> nth_error os k = Some (n, ps) -> firstn 7 (skipn (7 * k) (concat (map snd os))) = ps.
Proof.
  intros F. revert k. induction F as [|o os S7 F IH]; intros k Q; [destruct k; discriminate|]. unfold seven in S7. destruct k as [|k]; cbn [nth_error map concat] in *.
  - injection Q as ->. cbn [snd] in *. change (7 * 0) with 0. rewrite (skipn_O (ps ++ _)). rewrite firstn_app, S7, Nat.sub_diag, firstn_O, app_nil_r. apply firstn_all2. lia.
  - rewrite skipn_app, S7. rewrite skipn_all2 by lia. cbn [app]. replace (7 * S k - 7) with (7 * k) by lia. apply IH. exact Q.
Qed.

Lemma dt_option_card_ok h a w n ps : drep h a w -> length ps = 7 ->
  exists h' a', dt_option_card h a n ps = OK (h', a') /\ drep h' a' {| v_id := v_id w; v_title := v_title w; v_options := v_options w ++ [(n, ps)] |} /\
    (forall b, b < length h -> ~ In b (dblocks a) -> nth_error h' b = nth_error h b) /\
    (forall b, In b (dblocks a') -> In b (dblocks a) \/ length h <= b) /\
    (forall b c, nth_error h' b = Some (Some c) -> (length h <= b \/ In b (dblocks a)) -> In b (dblocks a')).
Proof.
  intros R L7. pose proof R as (I & (t & p & ns & Et & Ep & En & Rt & Rp & Rn) & S7 & D). unfold dt_option_card. rewrite I, Et, Ep, En. cbn [known bind].
  pose proof (fun b => in_dblocks a t p ns b Et Ep En) as B. unfold dblocks, dptrs in D. rewrite Et, Ep, En in D. cbn [from_mem] in D. change [p; t] with ([p] ++ [t]) in D. rewrite !ptr_blocks_app in D.
  destruct (nodup_app _ _ D) as (Dn & Dpt & X1). destruct (nodup_app _ _ Dpt) as (_ & Dt & X2).
  set (old := concat (map snd (v_options w))).
  assert (Q : (match p with Some _ => str_read h p | None => OK [] end) = OK old /\ names_of h p ns = OK ns /\ (p = None -> ns = [] /\ old = [])).
  { unfold old. destruct (v_options w) as [|o os] eqn:Eo.
    - cbn [opts_str names_str map] in *. destruct p as [[b o]|]; [destruct Rp|]. inversion Rn; subst. auto.
    - cbn [opts_str] in Rp. rewrite (read_one _ _ _ Rp). split; [destruct p; [reflexivity|destruct Rp]|]. split; [unfold names_of; destruct ns; [reflexivity|]; rewrite (read_one _ _ _ Rp); reflexivity|intros ->; destruct Rp]. }
  destruct Q as (-> & -> & Pn). cbn [bind]. unfold h_malloc at 1.
  assert (Fr : exists h1, h_free_opt (h ++ [Some n]) p = OK h1 /\ length h1 = length h + 1 /\ (forall b, In b (ptr_blocks [p]) -> nth_error h1 b = Some None) /\ (forall b, ~ In b (ptr_blocks [p]) -> nth_error h1 b = nth_error (h ++ [Some n]) b)).
  { destruct (free_all_ok [p] (h ++ [Some n])) as (h1 & E & L & F & G).
    - destruct p as [[b o]|]; [constructor; [intros []|constructor]|constructor].
    - intros b o Ib. assert (Rp' := srep_ext h [Some n] _ _ Rp). eapply sreps_off; [constructor; [exact Rp'|constructor]|exact Ib].
    - exists h1. cbn [h_free_all] in E. destruct (h_free_opt (h ++ [Some n]) p) as [hh| | ]; try discriminate. cbn [bind] in E. injection E as ->. rewrite app_length in L. auto. }
  destruct Fr as (h1 & -> & L1 & F1 & G1). cbn [bind]. unfold h_malloc. rewrite L1.
  assert (Lv : forall b, In b (dblocks a) -> b < length h) by (intros b Ib; destruct (drep_live _ _ _ _ R Ib) as (c & Q); eapply nth_lt; eauto).
  assert (Keep : forall b, ~ In b (ptr_blocks [p]) -> b < length h -> nth_error (h1 ++ [Some (old ++ ps)]) b = nth_error h b).
  { intros b NI Lb. rewrite nth_error_app1 by lia. rewrite G1 by exact NI. apply nth_error_app1. exact Lb. }
  eexists _, _. split; [reflexivity|]. split; [|split; [|split]].
  - apply drep_fresh; cbn [v_id v_title v_options].
    + reflexivity.
    + apply Forall_app. split; [exact S7|]. constructor; [exact L7|constructor].
    + eapply srep_frame; [exact Rt|]. intros b Ib. apply Keep; [|apply Lv; apply B; auto]. intros Ip. exact (X2 b Ip Ib).
    + replace (opts_str (v_options w ++ [(n, ps)])) with (Some (old ++ ps)).
      * cbn. split; [reflexivity|]. rewrite nth_error_app2 by lia. replace (length h + 1 - length h1) with 0 by lia. reflexivity.
      * unfold opts_str, old. rewrite map_app, concat_app. cbn [map snd concat]. rewrite app_nil_r. destruct (v_options w); reflexivity.
    + unfold names_str. rewrite map_app. apply Forall2_app.
      * eapply sreps_frame; [exact Rn|]. intros b Ib. apply Keep; [|apply Lv; apply B; auto]. intros Ip. apply (X1 b Ib). apply in_app_iff. auto.
      * constructor; [|constructor]. cbn. split; [reflexivity|]. rewrite nth_error_app1 by lia. rewrite G1; [rewrite nth_error_app2, Nat.sub_diag by lia; reflexivity|].
        intros Ip. assert (length h < length h) by (apply Lv; apply B; auto). lia.
    + change (t :: Some (length h + 1, 0) :: ns ++ [Some (length h, 0)]) with ([t] ++ [Some (length h + 1, 0)] ++ ns ++ [Some (length h, 0)]). rewrite !ptr_blocks_app.
      assert (Bn : forall b, In b (ptr_blocks ns) -> b < length h) by (intros b Ib; apply Lv; apply B; auto).
      assert (Bt : forall b, In b (ptr_blocks [t]) -> b < length h) by (intros b Ib; apply Lv; apply B; auto).
      assert (Xtn : forall b, In b (ptr_blocks [t]) -> ~ In b (ptr_blocks ns)) by (intros b Ib In'; apply (X1 b In'); apply in_app_iff; auto).
      clear - Dn Dt Bn Bt Xtn. revert Dn Dt Bn Bt Xtn. generalize (ptr_blocks ns) (ptr_blocks [t]). cbn [ptr_blocks flat_map app]. intros l l0 Dn Dt Bn Bt X.
      apply nodup_join; [exact Dt| |].
      * constructor; [|apply nodup_join; [exact Dn|constructor; [intros []|constructor]|]].
        -- rewrite in_app_iff. intros [Ib|[Ib|[]]]; [apply Bn in Ib|]; lia.
        -- intros b Ib [Q|[]]. apply Bn in Ib. lia.
      * intros b Ib [Q|Q]; [apply Bt in Ib; lia|]. apply in_app_iff in Q. destruct Q as [Q|[Q|[]]]; [exact (X b Ib Q)|apply Bt in Ib; lia].
  - intros b Lb NI. apply Keep; [|exact Lb]. intros Ip. apply NI. apply B. auto.
  - intros b Ib. apply fresh_blocks in Ib. change (t :: Some (length h + 1, 0) :: ns ++ [Some (length h, 0)]) with ([t] ++ [Some (length h + 1, 0)] ++ ns ++ [Some (length h, 0)]) in Ib. rewrite !ptr_blocks_app, !in_app_iff in Ib.
    destruct Ib as [Ib|[[<-|[]]|[Ib|[<-|[]]]]]; [left; apply B; auto|right; lia|left; apply B; auto|right; lia].
  - intros b c Q Ib. apply fresh_blocks. change (t :: Some (length h + 1, 0) :: ns ++ [Some (length h, 0)]) with ([t] ++ [Some (length h + 1, 0)] ++ ns ++ [Some (length h, 0)]). rewrite !ptr_blocks_app, !in_app_iff. destruct Ib as [Lb|Ib].
    + pose proof (nth_lt _ _ _ Q) as Lq. rewrite app_length in Lq. cbn [length] in Lq. assert (Cs : b = length h \/ b = length h + 1) by lia. destruct Cs as [-> | ->]; cbn; auto.
    + pose proof (Lv b Ib) as Lb. apply B in Ib. destruct Ib as [Ib|[Ib|Ib]]; [auto| |auto]. rewrite nth_error_app1, (F1 b Ib) in Q by lia. discriminate.
Qed.

Lemma dstep_ok s v o r v' : dinv s v -> dvstep v o r v' -> copies_are_full v o ->
  exists s', dstep s o = OK (s', r) /\ dinv s' v' /\ (dcov s -> dt_no_overwrite v o -> dcov s').
Proof.
  intros I St (Cn & Ct). destruct St as [|id t os L|j w N|j w N|i j w x N Ni Ne|i j w x N Ni|j w n ps N L|j w N|j w t N Q|j w N Q|j k w n ps N Q|j k w N Q|j w N]; cbn [dstep].
  - eexists. split; [reflexivity|]. split.
    + rewrite <- (app_nil_r (st_heap s)). apply (inv_fresh dblocks drep drep_frame drep_live); auto; try apply drep_zero; try (intros b []).
    + intros C _. rewrite <- (app_nil_r (st_heap s)). apply covered_fresh; [exact C|]. intros [|b]; discriminate.
  - destruct (dt_parse_ok (st_heap s) id t os L) as (ext & a & -> & R & Fr & C). eexists. split; [reflexivity|]. split; [apply (inv_fresh dblocks drep drep_frame drep_live); auto|].
    intros Cv _. apply covered_fresh; [exact Cv|]. intros b c Q. eapply C. exact Q.
  - destruct (inv_get dblocks drep s v j w I N) as (a & Qa & Ra & ->). cbn [bind dt_move]. rewrite (put_ok _ _ _ _ _ Qa). cbn [bind]. unfold new_obj. cbn [st_heap st_objs]. eexists. split; [reflexivity|]. split.
    + apply (inv_move_new dblocks drep drep_frame drep_live); auto; try reflexivity; try apply drep_zero.
    + intros C _. apply covered_move_new; auto.
  - destruct (inv_get dblocks drep s v j w I N) as (a & Qa & Ra & ->). cbn [bind]. destruct (Cn j w eq_refl N) as (Ht & Ho).
    destruct (dt_copy_ok (st_heap s) dt_raw a w Ra) as (ext & t & p & ns & -> & E); [intros X; contradiction|intros X; contradiction|]. cbn [bind].
    destruct (alloc_ok (v_title w :: opts_str (v_options w) :: names_str (v_options w)) (st_heap s)) as (ext' & ps & E' & R & Fr & D & C). rewrite E in E'. injection E' as Ex <-. apply app_inv_head in Ex. subst ext'.
    inversion R as [|? ? ? ? Rt R']; subst. inversion R' as [|? ? ? ? Rp Rn]; subst. eexists. split; [reflexivity|]. split.
    + apply (inv_fresh dblocks drep drep_frame drep_live); auto; [apply drep_fresh; auto; exact (proj1 (proj2 (proj2 Ra)))|]. intros b Ib. apply fresh_blocks in Ib. apply Fr. exact Ib.
    + intros Cv _. apply covered_fresh; [exact Cv|]. intros b c Q. apply fresh_blocks. eapply C. exact Q.
  - destruct (inv_get dblocks drep s v j w I N) as (a & Qa & Ra & ->). cbn [bind]. destruct (inv_get dblocks drep s v i x I Ni) as (d & Qd & Rd & ->). cbn [bind dt_move]. rewrite (put_ok _ _ _ _ _ Qd). cbn [bind].
    rewrite (put_ok _ _ _ _ (Some a)) by (cbn [st_objs]; rewrite nth_replace_neq by auto; exact Qa). cbn [bind st_heap st_objs]. eexists. split; [reflexivity|]. split.
    + apply (inv_move_to dblocks drep drep_frame drep_live); auto; try (eapply nth_lt; eauto; fail); try reflexivity; try apply drep_zero.
    + intros C H. eapply covered_move_to; eauto. cbn [oblocks]. destruct (H i j x (or_introl eq_refl) Ni) as (H1 & H2). eapply sreps_nones; [apply drep_sreps; exact Rd|]. rewrite H1, H2. repeat constructor.
  - destruct (inv_get dblocks drep s v j w I N) as (a & Qa & Ra & ->). cbn [bind]. destruct (inv_get dblocks drep s v i x I Ni) as (d & Qd & Rd & ->). cbn [bind]. destruct (Ct i j w x eq_refl N Ni) as (Ht & Ho & Hs).
    assert (X : exists ext t p ns, (if i =? j then dt_copy_self (st_heap s) a else dt_copy (st_heap s) d a) = OK (st_heap s ++ ext, {| d_tranid := Known (v_id w); d_title := Known t; d_options := Known p; d_names := Known ns |}) /\
      alloc_strings (st_heap s) (v_title w :: opts_str (v_options w) :: names_str (v_options w)) = (st_heap s ++ ext, t :: p :: ns)).
    { assert (Z : forall d, drep (st_heap s) d x -> exists ext t p ns, dt_copy (st_heap s) d a = OK (st_heap s ++ ext, {| d_tranid := Known (v_id w); d_title := Known t; d_options := Known p; d_names := Known ns |}) /\
        alloc_strings (st_heap s) (v_title w :: opts_str (v_options w) :: names_str (v_options w)) = (st_heap s ++ ext, t :: p :: ns)).
      { clear - Ra Ht Ho. intros d Rd. apply dt_copy_ok; [exact Ra| |]; destruct Rd as (_ & (t & p & ns & Et & Ep & En & Rt & Rp & Rn) & _).
        - intros Q. rewrite (Ht Q) in Rt. destruct t as [[b o]|]; [destruct Rt|exact Et].
        - intros Q. rewrite (Ho Q) in Rp, Rn. cbn in Rp, Rn. destruct p as [[b o]|]; [destruct Rp|]. inversion Rn; subst. auto. }
      destruct (Nat.eqb_spec i j) as [->|Ne].
      - assert (d = a) by congruence. assert (x = w) by congruence. subst d x. unfold dt_copy_self. pose proof Ra as (_ & (t & p & ns & Et & Ep & En & Rt & Rp & Rn) & _). rewrite En, Ep. cbn [known bind].
        rewrite (Hs eq_refl) in Rn. cbn in Rn. inversion Rn; subst. destruct (Z a Ra) as (ext & t1 & p1 & ns1 & Z1 & Z2). exists ext, t1, p1, ns1. split; [|exact Z2]. exact Z1.
      - exact (Z d Rd). }
    destruct X as (ext & t & p & ns & -> & E). cbn [bind].
    destruct (alloc_ok (v_title w :: opts_str (v_options w) :: names_str (v_options w)) (st_heap s)) as (ext' & ps & E' & R & Fr & D & C). rewrite E in E'. injection E' as Ex <-. apply app_inv_head in Ex. subst ext'.
    inversion R as [|? ? ? ? Rt R']; subst. inversion R' as [|? ? ? ? Rp Rn]; subst. rewrite (put_ok _ _ _ _ _ Qd). cbn [bind]. eexists. split; [reflexivity|]. split.
    + apply (inv_fresh_put dblocks drep drep_frame drep_live); auto; [eapply nth_lt; eauto|apply drep_fresh; auto; exact (proj1 (proj2 (proj2 Ra)))|]. intros b Ib. apply fresh_blocks in Ib. apply Fr. exact Ib.
    + intros Cv H. destruct (H i j x (or_intror eq_refl) Ni) as (H1 & H2). eapply covered_fresh_put; eauto.
      * cbn [oblocks]. eapply sreps_nones; [apply drep_sreps; exact Rd|]. rewrite H1, H2. repeat constructor.
      * intros b c Q. apply fresh_blocks. eapply C. exact Q.
  - destruct (inv_get dblocks drep s v j w I N) as (a & Qa & Ra & ->). cbn [bind]. destruct (dt_option_card_ok _ _ _ n ps Ra L) as (h' & a' & -> & R & F & B & C). cbn [bind]. rewrite (put_ok _ _ _ _ _ Qa). cbn [bind]. eexists. split; [reflexivity|].
    assert (Dj : forall i p b, i <> j -> nth_error (st_objs s) i = Some p -> In b (oblocks dblocks p) -> b < length (st_heap s) /\ ~ In b (dblocks a)).
    { intros i p b Ne Qp Ib. split; [eapply (inv_block_lt dblocks drep drep_frame drep_live); eauto|]. intros Ia. destruct I as (_ & _ & Dj). exact (Dj i j p (Some a) b Ne Qp Qa Ib Ia). }
    split.
    + apply (inv_put dblocks drep drep_frame drep_live); auto.
      * eapply nth_lt; eauto.
      * intros i p b Ne Qp Ib. destruct (Dj i p b Ne Qp Ib). apply F; assumption.
      * intros b i p Ne Ib Qp Ip. destruct (Dj i p b Ne Qp Ip) as (Lb & Nb). apply B in Ib. destruct Ib as [Ib|Ib]; [exact (Nb Ib)|lia].
    + intros Cv _. apply covered_put with (o := Some a); auto.
      * intros b c Q. destruct (in_dec Nat.eq_dec b (dblocks a)) as [Ia|Na]; [right; apply (C b c Q); auto|]. destruct (Nat.lt_ge_cases b (length (st_heap s))) as [Lb|Lb]; [|right; apply (C b c Q); auto].
        left. exists c. rewrite (F b Lb Na) in Q. exact Q.
      * intros b c Q Ib. apply (C b c Q). right. exact Ib.
  - destruct (inv_get dblocks drep s v j w I N) as (a & Qa & Ra & ->). cbn [bind]. destruct Ra as (-> & _). cbn [known bind]. exists s. auto.
  - destruct (inv_get dblocks drep s v j w I N) as (a & Qa & Ra & ->). cbn [bind]. destruct Ra as (_ & (t' & p & ns & Et & _ & _ & Rt & _) & _). unfold dt_title_of. rewrite Et. cbn [known bind]. rewrite Q in Rt.
    rewrite (read_one _ _ _ Rt). destruct t' as [[b o]|]; [|destruct Rt]. cbn [bind]. exists s. auto.
  - destruct (inv_get dblocks drep s v j w I N) as (a & Qa & Ra & ->). cbn [bind]. destruct Ra as (_ & (t' & p & ns & Et & _ & _ & Rt & _) & _). unfold dt_title_of. rewrite Et. cbn [known bind]. rewrite Q in Rt.
    destruct t' as [[b o]|]; [destruct Rt|]. cbn [bind]. exists s. auto.
  - destruct (inv_get dblocks drep s v j w I N) as (a & Qa & Ra & ->). cbn [bind]. destruct Ra as (_ & (t & p & ns0 & Et & Ep & En & Rt & Rp & Rn) & S7 & _). unfold dt_option. rewrite En, Ep. cbn [known bind].
    rewrite (F2_length _ _ _ Rn). unfold names_str. rewrite map_length. pose proof (nth_lt _ _ _ Q) as Lk. replace (k <? length (v_options w)) with true by (symmetry; apply Nat.ltb_lt; exact Lk).
    unfold opts_str in Rp. destruct (v_options w) as [|o os] eqn:Eo; [destruct k; discriminate|]. rewrite <- Eo in *. rewrite (read_one _ _ _ Rp). cbn [bind].
    assert (X : exists q, nth_error ns0 k = Some q /\ srep (st_heap s) q (Some n)).
    { clear - Rn Q. unfold names_str in Rn. revert k ns0 Q Rn. induction (v_options w) as [|o os IH]; intros k ns0 Q Rn; [destruct k; discriminate|]. inversion Rn; subst. destruct k as [|k]; cbn [nth_error] in *; [|eauto]. injection Q as ->. cbn [fst] in *. eauto. }
    destruct X as (q & Xq & Rq). rewrite (proj2 (aget_OK _ _ _) Xq). cbn [bind]. rewrite (read_one _ _ _ Rq). cbn [bind]. rewrite (seven_nth _ _ _ _ S7 Q). exists s. auto.
  - destruct (inv_get dblocks drep s v j w I N) as (a & Qa & Ra & ->). cbn [bind]. destruct Ra as (_ & (t & p & ns0 & Et & Ep & En & Rt & Rp & Rn) & S7 & _). unfold dt_option. rewrite En, Ep. cbn [known bind].
    rewrite (F2_length _ _ _ Rn). unfold names_str. rewrite map_length. replace (k <? length (v_options w)) with false by (symmetry; apply Nat.ltb_ge; exact Q). cbn [bind]. exists s. auto.
  - destruct (inv_get dblocks drep s v j w I N) as (a & Qa & Ra & ->). cbn [bind]. destruct (dt_destroy_ok _ _ _ Ra) as (h & -> & G & K). cbn [bind]. rewrite (put_ok _ _ _ _ _ Qa). cbn [bind]. eexists. split; [reflexivity|]. split.
    + apply (inv_destroy dblocks drep drep_frame drep_live s v j a h); auto.
    + intros C _. eapply covered_destroy; eauto.
Qed.
