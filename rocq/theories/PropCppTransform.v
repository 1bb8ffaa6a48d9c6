(** * C76-C79: IncludeTransform and DefineTransformation objects *)
From Verif Require Import CBase CBaseFacts CppArrayModel CppArraySpec CppArrayProofs OwnModel OwnSpec OwnProofs CppTransformModel CppTransformSpec CppTransformProofs.

(** ** C76: IncludeTransform objects are values *)

(** Every program that copies only objects with a file name shows what the
    same program over values shows. *)
Theorem C76_values_partial : forall prog rs v', vruns (such_that ivstep copies_have_names) [] prog rs v' ->
  exists s', irun store0 prog = OK (s', rs).
Proof.
  intros prog rs v' R. destruct (exec_sim istep (such_that ivstep copies_have_names) (inv iblocks irep)) with (s := @store0 itf) (prog := prog) (v := @nil (option itv)) (rs := rs) (v' := v') as (s' & E & _); auto.
  - intros s v o r w I (St & C). destruct (istep_ok s v o r w I St C) as (s1 & E & I1 & _). eauto.
  - apply inv_store0.
  - exists s'. exact E.
Qed.

(** The value semantics covers every operation on objects that are alive. *)
Theorem C76_all_operations : forall v j w, nth_error v j = Some (Some w) ->
  (exists r v', ivstep v (IMoveNew j) r v') /\ (exists r v', ivstep v (ICopyNew j) r v') /\ (exists r v', ivstep v (IDestroy j) r v') /\ (exists r v', ivstep v (INums j) r v') /\
  (forall f s, v_string w f = Some s -> exists r v', ivstep v (IStr j f) r v') /\
  (forall ss ns, length ss = 4 -> exists r v', ivstep v (ICard j ss ns) r v') /\
  (forall i x, nth_error v i = Some (Some x) -> (exists r v', ivstep v (ICopyTo i j) r v') /\ (i <> j -> exists r v', ivstep v (IMoveTo i j) r v')).
Proof.
  intros v j w N. repeat split; intros; eexists _, _.
  - eapply V_move_new; eauto.
  - eapply V_copy_new; eauto.
  - eapply V_destroy; eauto.
  - eapply V_nums; eauto.
  - eapply V_str; eauto.
  - eapply V_card; eauto.
  - eapply V_copy_to; eauto.
  - eapply V_move_to; eauto.
Qed.

Lemma parse_first ss ns : length ss = 4 -> exists h a, istep store0 (IParse ss ns) = OK ({| st_heap := h; st_objs := [Some a] |}, TNothing) /\ irep h a {| v_strings := ss; v_numbers := ns |} /\
  (forall b x, nth_error h b = Some x -> In b (iblocks a)).
Proof.
  intros L. destruct (it_parse_ok [] ss ns L) as (ext & a & E & R & _ & C). cbn [app] in *. exists ext, a. cbn [istep store0 st_heap]. rewrite E. split; [reflexivity|]. split; [exact R|]. exact C.
Qed.
Lemma null_of h a ss ns f : irep h a {| v_strings := ss; v_numbers := ns |} -> nth f ss None = None -> i_ptr a f = None.
Proof.
  intros (_ & F & _) Q. cbn [v_strings] in F. unfold i_ptr. clear - F Q. revert f Q. induction F as [|p s ps ss' R _ IH]; intros [|f] Q; cbn in *; auto. subst s. destruct p as [[b o]|]; [destruct R|reflexivity].
Qed.

(** What is missing: copying an object without a file name (default
    constructed, moved from, or parsed from a keyword without cards) is
    undefined, and so is reading a string the keyword does not give. *)
Theorem C76_copy_without_name_refuted : forall ss ns, length ss = 4 -> nth FILE_NAME ss None = None ->
  irun store0 [IParse ss ns; ICopyNew 0] = UB /\ irun store0 [INew; ICopyNew 0] = UB /\
  forall ss', length ss' = 4 -> irun store0 [IParse ss' ns; IMoveNew 0; ICopyNew 0] = UB.
Proof.
  intros ss ns L Q. split; [|split].
  - destruct (parse_first ss ns L) as (h & a & E & R & _). unfold irun. cbn [exec]. rewrite E. cbn [bind]. cbn [istep get_obj st_objs st_heap aget nth_error bind].
    unfold it_copy. rewrite (null_of _ _ _ _ _ R Q). reflexivity.
  - reflexivity.
  - intros ss' L'. destruct (parse_first ss' ns L') as (h & a & E & R & _). unfold irun. cbn [exec]. rewrite E. reflexivity.
Qed.
Theorem C76_missing_string_refuted : forall ss ns f, length ss = 4 -> nth f ss None = None -> irun store0 [IParse ss ns; IStr 0 f] = UB.
Proof.
  intros ss ns f L Q. destruct (parse_first ss ns L) as (h & a & E & R & _). unfold irun. cbn [exec]. rewrite E. cbn [bind]. cbn [istep get_obj st_objs st_heap aget nth_error bind].
  rewrite (null_of _ _ _ _ _ R Q). reflexivity.
Qed.
(** Moving an object to itself empties it. *)
Theorem C76_self_move_refuted : forall ss ns, length ss = 4 -> exists s, irun store0 [IParse ss ns; IMoveTo 0 0; INums 0] = OK (s, [TNothing; TNothing; TNums (repeat 0%Z 13)]).
Proof. intros ss ns L. destruct (parse_first ss ns L) as (h & a & E & R & _). unfold irun. cbn [exec]. rewrite E. cbn [bind]. eexists. reflexivity. Qed.

Definition C76_prog : list iop :=
  [IParse [Some [97%Z]; None; Some [98%Z]; None] [1; 2]%Z; ICopyNew 0; ICard 1 [None; Some [99%Z]; None; None] [3]%Z; IStr 1 PREFIX; IStr 0 FILE_NAME; INums 0; IMoveNew 1; IStr 2 SUFFIX; ICopyTo 0 2; IDestroy 1; IDestroy 2; IStr 0 PREFIX; IDestroy 0].
Example C76_case : exists s, irun store0 C76_prog = OK (s, [TNothing; TNothing; TNothing; TStr [99]; TStr [97]; TNums [1; 2]; TNothing; TStr [98]; TNothing; TNothing; TNothing; TStr [99]; TNothing]%Z).
Proof. eexists. vm_compute. reflexivity. Qed.
Ltac vstep c := eapply VR_step; [split; [eapply c; try reflexivity; try discriminate|]|].
Example C76_case_hypotheses : exists rs v, vruns (such_that ivstep copies_have_names) [] [IParse [Some [97%Z]; None; Some [98%Z]; None] [1; 2]%Z; ICopyNew 0; ICopyTo 0 1; IDestroy 1] rs v.
Proof.
  eexists _, _. vstep V_parse; [intros j w [Q|(i & Q)]; discriminate|]. vstep V_copy_new; [intros j w [Q|(i & Q)]; [injection Q as <-; intros [= <-]; discriminate|discriminate]|].
  vstep V_copy_to; [intros j w [Q|(i & Q)]; [discriminate|injection Q as <- <-; intros [= <-]; discriminate]|]. vstep V_destroy; [intros j w [Q|(i & Q)]; discriminate|]. apply VR_done.
Qed.

(** ** C77: their memory *)
Theorem C77_no_leak_partial : forall prog rs v', vruns (such_that ivstep (fun v o => copies_have_names v o /\ it_no_overwrite v o)) [] prog rs v' -> Forall (fun o => o = None) v' ->
  exists s', irun store0 prog = OK (s', rs) /\ forall b, ~ live s' b.
Proof.
  intros prog rs v' R G. destruct (exec_sim istep (such_that ivstep (fun v o => copies_have_names v o /\ it_no_overwrite v o)) (fun s v => inv iblocks irep s v /\ covered iblocks s)) with (s := @store0 itf) (prog := prog) (v := @nil (option itv)) (rs := rs) (v' := v') as (s' & E & I & C); auto.
  - intros s v o r w (I & C) (St & Cn & No). destruct (istep_ok s v o r w I St Cn) as (s1 & E & I1 & C1). eauto.
  - split; [apply inv_store0|apply covered_store0].
  - exists s'. split; [exact E|]. eapply all_gone; eauto.
Qed.
(** What is missing: the temperature flag is never freed ... *)
Theorem C77_temperature_refuted : forall ss ns t, length ss = 4 -> nth FCTTEM ss None = Some t ->
  exists s b, irun store0 [IParse ss ns; IDestroy 0] = OK (s, [TNothing; TNothing]) /\ live s b.
Proof.
  intros ss ns t L Q. destruct (parse_first ss ns L) as (h & a & E & R & _). unfold irun. cbn [exec]. rewrite E. cbn [bind]. cbn [istep get_obj st_objs st_heap aget nth_error bind].
  destruct (it_destroy_ok _ _ _ R) as (h' & -> & _ & _ & K). cbn [bind put_obj st_objs aset]. destruct R as (_ & F & _).
  assert (X : srep h (i_ptr a FCTTEM) (Some t)) by (unfold i_ptr; rewrite <- Q; clear - F; cbn [v_strings] in F; revert F; generalize FCTTEM; intros f F; revert f; induction F; intros [|f]; cbn; auto).
  destruct (i_ptr a FCTTEM) as [[b o]|]; [|destruct X]. destruct X as (-> & X). eexists _, b. split; [reflexivity|]. exists t. cbn [st_heap]. rewrite (K b 0 eq_refl). exact X.
Qed.
(** ... and an assignment loses the strings of its target. *)
Theorem C77_assignment_refuted : forall ss ss' ns ns' f t, length ss = 4 -> length ss' = 4 -> nth f ss None = Some t ->
  exists s b, irun store0 [IParse ss ns; IParse ss' ns'; IMoveTo 0 1; IDestroy 0; IDestroy 1] = OK (s, [TNothing; TNothing; TNothing; TNothing; TNothing]) /\ live s b.
Proof.
  intros ss ss' ns ns' f t L L' Q. destruct (parse_first ss ns L) as (h & a & E & R & _). unfold irun. cbn [exec]. rewrite E. cbn [bind].
  destruct (it_parse_ok h ss' ns' L') as (ext & a' & E' & R' & Fr & _). cbn [istep st_heap]. rewrite E'. unfold new_obj. cbn [bind st_objs app].
  cbn [istep get_obj put_obj st_objs st_heap aget aset nth_error bind it_move]. destruct (it_destroy_ok _ _ _ R') as (h' & -> & G & _). cbn [bind put_obj st_objs aset].
  cbn [istep get_obj put_obj st_objs st_heap aget aset nth_error bind]. change (it_destroy h' it_zero) with (OK h'). cbn [bind put_obj st_objs aset].
  destruct R as (_ & F & _). assert (X : srep h (i_ptr a f) (Some t)) by (unfold i_ptr; rewrite <- Q; clear - F; cbn [v_strings] in F; revert f; induction F; intros [|f]; cbn; auto).
  destruct (i_ptr a f) as [[b o]|]; [|destruct X]. destruct X as (-> & X). eexists _, b. split; [reflexivity|]. exists t. cbn [st_heap]. pose proof (nth_lt _ _ _ X) as Lb. rewrite G by (intros I; apply Fr in I; lia). rewrite nth_error_app1 by exact Lb. exact X.
Qed.
Example C77_case : exists s, irun store0 [IParse [Some [97%Z]; Some [99%Z]; Some [98%Z]; None] [1; 2]%Z; ICopyNew 0; IMoveNew 1; IDestroy 1; IDestroy 0; IStr 2 SUFFIX; IDestroy 2] = OK (s, [TNothing; TNothing; TNothing; TNothing; TNothing; TStr [98]; TNothing]%Z) /\
  Forall (fun b => b = None) (st_heap s) /\ length (st_heap s) = 6.
Proof. eexists. split; [vm_compute; reflexivity|]. split; [repeat constructor|reflexivity]. Qed.

(** ** C78: DefineTransformation objects are values *)
Theorem C78_values_partial : forall prog rs v', vruns (such_that dvstep copies_are_full) [] prog rs v' ->
  exists s', drun store0 prog = OK (s', rs).
Proof.
  intros prog rs v' R. destruct (exec_sim dstep (such_that dvstep copies_are_full) (inv dblocks drep)) with (s := @store0 dtf) (prog := prog) (v := @nil (option dtv)) (rs := rs) (v' := v') as (s' & E & _); auto.
  - intros s v o r w I (St & C). destruct (dstep_ok s v o r w I St C) as (s1 & E & I1 & _). eauto.
  - apply inv_store0.
  - exists s'. exact E.
Qed.
Theorem C78_all_operations : forall v j w, nth_error v j = Some (Some w) ->
  (exists r v', dvstep v (DMoveNew j) r v') /\ (exists r v', dvstep v (DCopyNew j) r v') /\ (exists r v', dvstep v (DDestroy j) r v') /\ (exists r v', dvstep v (DId j) r v') /\
  (exists r v', dvstep v (DTitle j) r v') /\ (forall k, exists r v', dvstep v (DOption j k) r v') /\
  (forall n ps, length ps = 7 -> exists r v', dvstep v (DCard j n ps) r v') /\
  (forall i x, nth_error v i = Some (Some x) -> (exists r v', dvstep v (DCopyTo i j) r v') /\ (i <> j -> exists r v', dvstep v (DMoveTo i j) r v')).
Proof.
  intros v j w N. repeat split; intros.
  - eexists _, _. eapply W_move_new; eauto.
  - eexists _, _. eapply W_copy_new; eauto.
  - eexists _, _. eapply W_destroy; eauto.
  - eexists _, _. eapply W_id; eauto.
  - destruct (v_title w) as [t|] eqn:Q; eexists _, _; [eapply W_title; eauto|eapply W_no_title; eauto].
  - destruct (nth_error (v_options w) k) as [[n ps]|] eqn:Q; eexists _, _; [eapply W_option; eauto|eapply W_option_range; eauto]. apply nth_error_None. exact Q.
  - eexists _, _. eapply W_card; eauto.
  - eexists _, _. eapply W_copy_to; eauto.
  - eexists _, _. eapply W_move_to; eauto.
Qed.

Lemma dparse_first id t os : Forall seven os -> exists h a, dstep store0 (DParse id t os) = OK ({| st_heap := h; st_objs := [Some a] |}, TNothing) /\ drep h a {| v_id := id; v_title := t; v_options := os |}.
Proof. intros L. destruct (dt_parse_ok [] id t os L) as (ext & a & E & R & _). cbn [app] in *. exists ext, a. cbn [dstep store0 st_heap]. rewrite E. auto. Qed.

(** What is missing: a copy of an object without a title or without options
    has uninitialised members, which its destructor reads ... *)
Lemma aset_fuel {A} (l : list A) x : forall i, aset l i x <> OOF.
Proof. induction l as [|y l IH]; intros [|i]; cbn [aset]; try discriminate. specialize (IH i). destruct (aset l i x); cbn [bind]; congruence. Qed.
Lemma free_fuel h p : h_free_opt h p <> OOF.
Proof.
  destruct p as [[b o]|]; cbn [h_free_opt]; [|discriminate]. unfold h_free, aget. cbn [fst snd]. destruct (nth_error h b) as [[c|]|]; cbn [bind]; try discriminate.
  destruct (o =? 0); [|discriminate]. apply aset_fuel.
Qed.
Lemma free_all_fuel l : forall h, h_free_all h l <> OOF.
Proof. induction l as [|p l IH]; intros h; cbn [h_free_all]; [discriminate|]. pose proof (free_fuel h p). destruct (h_free_opt h p); cbn [bind]; [apply IH|discriminate|congruence]. Qed.
Lemma dt_copy_unknown h r w : drep h r w -> v_title w = None \/ v_options w = [] -> exists h' a, dt_copy h dt_raw r = OK (h', a) /\ (forall h2, (exists c, h2 = h' ++ c) -> dt_destroy h2 a = UB).
Proof.
  intros R Q. pose proof R as (I & (t & p & ns & Et & Ep & En & Rt & Rp & Rn) & S7 & D). unfold dt_copy. rewrite I, Et, Ep, En. cbn [known bind].
  destruct (v_options w) as [|o os] eqn:Eo.
  - cbn in Rn, Rp. inversion Rn; subst. destruct t as [[b c]|].
    + destruct (v_title w) as [c'|]; [|destruct Rt]. rewrite (strdup_one _ _ _ Rt). cbn [bind]. eexists _, _. split; [reflexivity|]. reflexivity.
    + cbn [bind]. eexists _, _. split; [reflexivity|]. reflexivity.
  - destruct Q as [Q|Q]; [|discriminate]. rewrite Q in Rt. destruct t as [[b c]|]; [destruct Rt|]. cbn [bind]. cbn [opts_str] in Rp. destruct p as [[b c]|]; [|destruct Rp].
    assert (Nn : exists n nr, ns = n :: nr) by (inversion Rn; eauto). destruct Nn as (n & nr & ->). rewrite (read_one _ _ _ Rp). cbn [bind]. unfold h_malloc.
    rewrite (strdup_alloc _ _ _ (sreps_ext _ [Some (concat (map snd (o :: os)))] _ _ Rn)). cbn [bind].
    destruct (alloc_ok (names_str (o :: os)) (h ++ [Some (concat (map snd (o :: os)))])) as (ext & ps & E & Rs & Fr & Dn & _). rewrite E. cbn [bind].
    eexists _, _. split; [reflexivity|]. intros h2 (c2 & ->). unfold dt_destroy. cbn [d_names d_options d_title dt_raw known bind].
    destruct (names_of _ _ ps) as [ns'| | ] eqn:En'; cbn [bind]; [|reflexivity|].
    + destruct (h_free_all _ ns') as [h3| | ] eqn:Ef; cbn [bind]; [|reflexivity|exfalso; exact (free_all_fuel _ _ Ef)].
      destruct (h_free_opt h3 _) as [h4| | ] eqn:Eo4; cbn [bind]; [reflexivity|reflexivity|exfalso; exact (free_fuel _ _ Eo4)].
    + exfalso. revert En'. unfold names_of. destruct ps; [discriminate|]. unfold str_read, aget. destruct (nth_error _ _) as [[x|]|]; cbn [bind]; discriminate.
Qed.
Theorem C78_copy_refuted : forall id t os, Forall seven os -> t = None \/ os = [] -> drun store0 [DParse id t os; DCopyNew 0; DDestroy 1] = UB.
Proof.
  intros id t os F Q. destruct (dparse_first id t os F) as (h & a & E & R). unfold drun. cbn [exec]. rewrite E. cbn [bind]. cbn [dstep get_obj st_objs st_heap aget nth_error bind].
  destruct (dt_copy_unknown h a _ R Q) as (h' & a' & -> & U). unfold new_obj. cbn [bind st_objs app]. cbn [dstep get_obj st_objs st_heap aget nth_error bind]. rewrite (U h'); [reflexivity|]. exists []. rewrite app_nil_r. reflexivity.
Qed.
(** ... an assignment keeps the old title or the old options if the new value
    has none ... *)
Theorem C78_assignment_refuted : forall id t os id' os' t', Forall seven os -> Forall seven os' ->
  (exists s, drun store0 [DParse id (Some t) os; DParse id' None os'; DCopyTo 0 1; DTitle 0] = OK (s, [TNothing; TNothing; TNothing; TStr t])) /\
  (forall n ps, nth_error os 0 = Some (n, ps) -> exists s, drun store0 [DParse id (Some t) os; DParse id' t' []; DCopyTo 0 1; DOption 0 0] = OK (s, [TNothing; TNothing; TNothing; TOption n ps])).
Proof.
  intros id t os id' os' t' F F'. destruct (dparse_first id (Some t) os F) as (h & a & E & R). split.
  - unfold drun. cbn [exec]. rewrite E. cbn [bind]. destruct (dt_parse_ok h id' None os' F') as (ext & a' & E' & R' & _). cbn [dstep st_heap]. rewrite E'. unfold new_obj. cbn [bind st_objs app].
    cbn [dstep get_obj st_objs st_heap aget nth_error bind Nat.eqb].
    pose proof R as (I & (t0 & p0 & ns0 & Et & Ep & En & Rt & Rp & Rn) & _). pose proof R' as (I' & (t1 & p1 & ns1 & Et' & Ep' & En' & Rt' & Rp' & Rn') & _). cbn [v_title v_options v_id] in *.
    unfold dt_copy. rewrite I', Et', Ep', En'. cbn [known bind]. destruct t1 as [[b o]|]; [destruct Rt'|]. cbn [bind]. rewrite Et.
    assert (Rd : forall e, str_read ((h ++ ext) ++ e) t0 = OK t /\ exists q, t0 = Some q) by (intros e; split; [apply read_one; apply srep_ext; apply srep_ext; exact Rt|destruct t0; [eauto|destruct Rt]]).
    destruct os' as [|o os'].
    + cbn in Rn'. inversion Rn'; subst. cbn [bind put_obj st_objs aset]. cbn [dstep get_obj st_objs st_heap aget nth_error bind]. unfold dt_title_of. cbn [d_title known bind]. destruct (Rd []) as (Q & q & ->). rewrite app_nil_r in Q. rewrite Q. cbn [bind]. eauto.
    + assert (Nn : exists n nr, ns1 = n :: nr) by (inversion Rn'; eauto). destruct Nn as (n & nr & ->). cbn [opts_str] in Rp'. destruct p1 as [[b c]|]; [|destruct Rp']. rewrite (read_one _ _ _ Rp'). cbn [bind]. unfold h_malloc.
      rewrite (strdup_alloc _ _ _ (sreps_ext _ [Some (concat (map snd (o :: os')))] _ _ Rn')). cbn [bind]. destruct (alloc_ok (names_str (o :: os')) ((h ++ ext) ++ [Some (concat (map snd (o :: os')))])) as (ext2 & ps & E2 & _). rewrite E2. cbn [bind put_obj st_objs aset].
      cbn [dstep get_obj st_objs st_heap aget nth_error bind]. unfold dt_title_of. cbn [d_title known bind]. rewrite <- app_assoc. destruct (Rd ([Some (concat (map snd (o :: os')))] ++ ext2)) as (Q & q & ->). rewrite Q. cbn [bind]. eauto.
  - intros n ps Q. unfold drun. cbn [exec]. rewrite E. cbn [bind]. destruct (dt_parse_ok h id' t' [] (Forall_nil _)) as (ext & a' & E' & R' & _). cbn [dstep st_heap]. rewrite E'. unfold new_obj. cbn [bind st_objs app].
    cbn [dstep get_obj st_objs st_heap aget nth_error bind Nat.eqb].
    pose proof R as (I & (t0 & p0 & ns0 & Et & Ep & En & Rt & Rp & Rn) & S7 & _). pose proof R' as (I' & (t1 & p1 & ns1 & Et' & Ep' & En' & Rt' & Rp' & Rn') & _). cbn [v_title v_options v_id] in *.
    unfold dt_copy. rewrite I', Et', Ep', En'. cbn [known bind]. cbn in Rn'. inversion Rn'; subst.
    assert (X : exists e tt, (match t1 with Some _ => do ' (h0, q) <- strdup (h ++ ext) t1; OK (h0, Known q) | None => OK (h ++ ext, d_title a) end) = OK ((h ++ ext) ++ e, tt)).
    { destruct t1 as [[b o]|]; [|exists [], (d_title a); rewrite app_nil_r; reflexivity]. destruct t' as [c|]; [|destruct Rt']. rewrite (strdup_one _ _ _ Rt'). cbn [bind]. eauto. }
    destruct X as (e & tt & ->). cbn [bind put_obj st_objs aset]. cbn [dstep get_obj st_objs st_heap aget nth_error bind]. unfold dt_option. cbn [d_names d_options]. rewrite En, Ep. cbn [known bind].
    destruct os as [|o os]; [discriminate|]. injection Q as ->. inversion Rn as [|q ? qs ? Rq _]; subst. cbn [length]. replace (0 <? S (length qs)) with true by reflexivity. cbn [opts_str] in Rp.
    rewrite (read_one _ _ _ (srep_ext _ e _ _ (srep_ext _ ext _ _ Rp))). cbn [bind aget nth_error]. cbn [fst] in Rq. rewrite (read_one _ _ _ (srep_ext _ e _ _ (srep_ext _ ext _ _ Rq))). cbn [bind].
    rewrite (seven_nth _ 0 n ps S7 eq_refl). eauto.
Qed.
(** ... and assigning an object with options to itself is undefined. *)
Theorem C78_self_assignment_refuted : forall id t os, Forall seven os -> os <> [] -> drun store0 [DParse id t os; DCopyTo 0 0] = UB.
Proof.
  intros id t os F N. destruct (dparse_first id t os F) as (h & a & E & R). unfold drun. cbn [exec]. rewrite E. cbn [bind]. cbn [dstep get_obj st_objs st_heap aget nth_error bind Nat.eqb].
  destruct R as (I & (t0 & p0 & ns0 & Et & Ep & En & Rt & Rp & Rn) & _). cbn [v_options] in *. unfold dt_copy_self. rewrite En, Ep. cbn [known bind]. destruct os as [|o os]; [congruence|].
  inversion Rn; subst. cbn [opts_str] in Rp. destruct p0 as [[b c]|]; [reflexivity|destruct Rp].
Qed.

Definition C78_opt (x : Z) : list Z * list Z := ([x], [1; 2; 3; 4; 5; 6; x]%Z).
Definition C78_prog : list dop :=
  [DParse 7 (Some [97%Z]) [C78_opt 8; C78_opt 9]; DCopyNew 0; DCard 1 [10%Z] [0; 0; 0; 0; 0; 0; 10]%Z; DOption 1 2; DOption 0 2; DOption 0 1; DMoveNew 1; DTitle 1; DTitle 2; DCopyTo 0 2; DDestroy 1; DDestroy 2; DOption 0 2; DId 0; DDestroy 0].
Example C78_case : exists s, drun store0 C78_prog = OK (s, [TNothing; TNothing; TNothing; TOption [10] [0; 0; 0; 0; 0; 0; 10]; TThrown; TOption [9] [1; 2; 3; 4; 5; 6; 9]; TNothing; TThrown; TStr [97]; TNothing; TNothing; TNothing; TOption [10] [0; 0; 0; 0; 0; 0; 10]; TNums [7]; TNothing]%Z).
Proof. eexists. vm_compute. reflexivity. Qed.
Example C78_case_hypotheses : exists rs v, vruns (such_that dvstep copies_are_full) [] [DParse 7 (Some [97%Z]) [C78_opt 8; C78_opt 9]; DCopyNew 0; DNew; DCopyTo 2 1; DCopyTo 1 0; DDestroy 1] rs v.
Proof.
  assert (S7 : Forall seven [C78_opt 8; C78_opt 9]) by (repeat constructor).
  eexists _, _. vstep W_parse; [exact S7|split; intros; discriminate|]. vstep W_copy_new; [split; [intros j w [= <-] [= <-]; split; discriminate|intros; discriminate]|].
  vstep W_new; [split; intros; discriminate|].
  vstep W_copy_to; [split; [intros; discriminate|intros i j w x [= <- <-] [= <-] [= <-]; repeat split; discriminate]|].
  vstep W_copy_to; [split; [intros; discriminate|intros i j w x [= <- <-] [= <-] [= <-]; repeat split; discriminate]|].
  vstep W_destroy; [split; intros; discriminate|]. apply VR_done.
Qed.

(** ** C79: their memory *)
Theorem C79_no_leak_partial : forall prog rs v', vruns (such_that dvstep (fun v o => copies_are_full v o /\ dt_no_overwrite v o)) [] prog rs v' -> Forall (fun o => o = None) v' ->
  exists s', drun store0 prog = OK (s', rs) /\ forall b, ~ live s' b.
Proof.
  intros prog rs v' R G. destruct (exec_sim dstep (such_that dvstep (fun v o => copies_are_full v o /\ dt_no_overwrite v o)) (fun s v => inv dblocks drep s v /\ covered dblocks s)) with (s := @store0 dtf) (prog := prog) (v := @nil (option dtv)) (rs := rs) (v' := v') as (s' & E & I & C); auto.
  - intros s v o r w (I & C) (St & Cn & No). destruct (dstep_ok s v o r w I St Cn) as (s1 & E & I1 & C1). eauto.
  - split; [apply inv_store0|apply covered_store0].
  - exists s'. split; [exact E|]. eapply all_gone; eauto.
Qed.
(** What is missing: an assignment loses the memory of its target. *)
Theorem C79_assignment_refuted : forall id t os id' t' os', Forall seven os -> Forall seven os' -> t <> None \/ os <> [] ->
  exists s b, drun store0 [DParse id t os; DParse id' t' os'; DMoveTo 0 1; DDestroy 0; DDestroy 1] = OK (s, [TNothing; TNothing; TNothing; TNothing; TNothing]) /\ live s b.
Proof.
  intros id t os id' t' os' F F' Q. destruct (dparse_first id t os F) as (h & a & E & R). unfold drun. cbn [exec]. rewrite E. cbn [bind].
  destruct (dt_parse_ok h id' t' os' F') as (ext & a' & E' & R' & Fr & _). cbn [dstep st_heap]. rewrite E'. unfold new_obj. cbn [bind st_objs app].
  cbn [dstep get_obj put_obj st_objs st_heap aget aset nth_error bind dt_move]. destruct (dt_destroy_ok _ _ _ R') as (h' & -> & G & _). cbn [bind put_obj st_objs aset].
  cbn [dstep get_obj put_obj st_objs st_heap aget aset nth_error bind]. change (dt_destroy h' dt_zero) with (OK h'). cbn [bind put_obj st_objs aset].
  assert (X : exists b c, nth_error h b = Some (Some c)).
  { destruct R as (_ & (t0 & p0 & ns0 & _ & _ & _ & Rt & Rp & _) & _). cbn [v_title v_options] in *. destruct Q as [Q|Q].
    - destruct t as [c|]; [|congruence]. destruct t0 as [[b o]|]; [|destruct Rt]. destruct Rt as (_ & Rt). eauto.
    - destruct os as [|o os]; [congruence|]. cbn [opts_str] in Rp. destruct p0 as [[b o0]|]; [|destruct Rp]. destruct Rp as (_ & Rp). eauto. }
  destruct X as (b & c & X). eexists _, b. split; [reflexivity|]. exists c. cbn [st_heap]. pose proof (nth_lt _ _ _ X) as Lb. rewrite G by (intros I; apply Fr in I; lia). rewrite nth_error_app1 by exact Lb. exact X.
Qed.
Example C79_case : exists s, drun store0 [DParse 7 (Some [97%Z]) [C78_opt 8; C78_opt 9]; DCopyNew 0; DCard 1 [10%Z] [0; 0; 0; 0; 0; 0; 10]%Z; DMoveNew 1; DDestroy 1; DDestroy 0; DOption 2 2; DDestroy 2] =
  OK (s, [TNothing; TNothing; TNothing; TNothing; TNothing; TNothing; TOption [10] [0; 0; 0; 0; 0; 0; 10]; TNothing]%Z) /\ Forall (fun b => b = None) (st_heap s) /\ length (st_heap s) = 10.
Proof. eexists. split; [vm_compute; reflexivity|]. split; [repeat constructor|reflexivity]. Qed.
