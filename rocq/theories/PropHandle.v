(** * C80-C83: handles, messages, names and their memory *)
From Verif Require Import CBase CBaseFacts CppArrayModel CppArraySpec CppArrayProofs OwnModel OwnSpec OwnProofs CppTransformModel CppTransformProofs HandleModel HandleSpec HandleProofs.

Lemma runs_ok (P : list (option hval) -> hop -> Prop) prog v rs v' : vruns (such_that hvstep P) v prog rs v' -> forall s A, H s v A ->
  exists s' A', hrun s prog = OK (s', rs) /\ H s' v' A' /\ length A' = length A + binouts prog /\ ((forall v o, P v o -> no_overwrite v o) -> acc s A -> acc s' A').
Proof.
  induction 1 as [v|v o r v' t rs v'' (St & Po) _ IH]; intros s A Hs.
  - exists s, A. split; [reflexivity|]. split; [exact Hs|]. split; [cbn; lia|auto].
  - destruct (hstep_ok s v A o r v' Hs St) as (s1 & A1 & E & H1 & L1 & Ac1). destruct (IH s1 A1 H1) as (s2 & A2 & E2 & H2 & L2 & Ac2). exists s2, A2. split; [|split; [exact H2|split]].
    + unfold hrun in *. cbn [exec]. rewrite E. cbn [bind]. rewrite E2. reflexivity.
    + rewrite L2, L1. unfold binouts. cbn [filter]. destruct o as [| ts [|n] r0| | | | | | | | | ]; cbn [opened length]; lia.
    + intros Pn Ac. apply Ac2; [exact Pn|]. apply Ac1; [|exact Ac]. apply Pn. exact Po.
Qed.
Lemma plain (P : list (option hval) -> hop -> Prop) v prog rs v' : (forall v o, P v o) -> vruns hvstep v prog rs v' -> vruns (such_that hvstep P) v prog rs v'.
Proof. intros Q. induction 1; econstructor; eauto. split; auto. Qed.
Lemma run_plain prog rs v' : vruns hvstep [] prog rs v' -> exists s' A', hrun store0 prog = OK (s', rs) /\ H s' v' A' /\ length A' = binouts prog.
Proof. intros R. destruct (runs_ok (fun _ _ => True) prog [] rs v' (plain _ _ _ _ _ (fun _ _ => Logic.I) R) store0 [] H0) as (s' & A' & E & H' & L & _). eauto. Qed.
Lemma vruns_app {V O R : Type} (step : V -> O -> R -> V -> Prop) v p rs v1 q rs' v2 : vruns step v p rs v1 -> vruns step v1 q rs' v2 -> vruns step v (p ++ q) (rs ++ rs') v2.
Proof. induction 1; intros Q; [exact Q|]. cbn [app]. econstructor; eauto. Qed.

(** ** C80: programs with handles *)
Theorem C80_handles_partial : forall prog rs v', vruns hvstep [] prog rs v' -> exists s', hrun store0 prog = OK (s', rs).
Proof. intros prog rs v' R. destruct (run_plain _ _ _ R) as (s' & A' & E & _). eauto. Qed.

(** The values allow every operation on an object that is alive, except:
    reading through a D3plot that was moved from, reading a text that is no
    longer there, and moving an object onto itself. *)
Definition is_handle (w : hval) : Prop := match w with VPlot _ | VBin _ _ _ => True | _ => False end.
Theorem C80_all_operations : forall v,
  (forall n bf r, exists x v', hvstep v (OpenPlot n bf r) x v') /\ (forall ts n r, exists x v', hvstep v (OpenBin ts n r) x v') /\
  (forall j w, nth_error v j = Some (Some w) ->
    (exists x v', hvstep v (MoveNew j) x v') /\ (exists x v', hvstep v (Destroy j) x v') /\
    (is_handle w -> forall c c32 r, exists x v', hvstep v (Call j c c32 r) x v') /\
    (forall n ns e, w = VBin n ns e -> (forall r, exists x v', hvstep v (Ask j r) x v') /\ (forall t, exists x v', hvstep v (Literal j t) x v') /\ (forall k, k < length ns -> exists x v', hvstep v (Child j k) x v')) /\
    (forall t, text_of w = Some t -> (exists v', hvstep v (What j) (HText t) v') /\ exists x v', hvstep v (CopyStr j) x v') /\
    (forall i x0, nth_error v i = Some (Some x0) -> i <> j -> same_kind w x0 -> exists x v', hvstep v (MoveTo i j) x v')).
Proof.
  intros v. split; [|split].
  - intros n bf [m|]; eexists _, _; constructor.
  - intros ts n [m|]; eexists _, _; constructor.
  - intros j w Q. split; [eexists _, _; eapply H_move_new; eauto|]. split; [eexists _, _; eapply H_destroy; eauto|]. split; [|split; [|split]].
    + intros Hh c c32 r. destruct w; try destruct Hh; destruct r; eexists _, _; [eapply H_read_plot_fails|eapply H_read_plot|eapply H_read_bin_fails|eapply H_read_bin]; eauto.
    + intros n ns e ->. split; [intros [m|]; eexists _, _; [eapply H_ask_fails|eapply H_ask]; eauto|]. split; [intros t; eexists _, _; eapply H_literal; eauto|]. intros k Lk.
      destruct (nth_error ns k) as [t|] eqn:E; [|apply nth_error_None in E; lia]. eexists _, _. eapply H_child; eauto.
    + intros t Et. split; [eexists; eapply H_what; eauto|eexists _, _; eapply H_copy; eauto].
    + intros i x0 Qi N Sk. eexists _, _. eapply H_move_to; eauto.
Qed.

Lemma exec_app p q : forall s s' rs, hrun s p = OK (s', rs) -> hrun s (p ++ q) = do ' (s2, rs2) <- hrun s' q; OK (s2, rs ++ rs2).
Proof.
  unfold hrun. induction p as [|o p IH]; intros s s' rs E; cbn [exec app] in *.
  - injection E as <- <-. destruct (exec hstep s q) as [[a b]| | ]; reflexivity.
  - destruct (hstep s o) as [[s1 r]| | ]; cbn [bind] in *; try discriminate. destruct (exec hstep s1 p) as [[s2 rs2]| | ] eqn:E2; cbn [bind] in *; try discriminate. injection E as <- <-. rewrite (IH _ _ _ E2). destruct (exec hstep s2 q) as [[a b]| | ]; reflexivity.
Qed.

(** What is missing: a D3plot that was moved from has no data pointers, so
    every read through it is undefined ... *)
Theorem C80_moved_from_refuted : forall p rs v j c c32 r, vruns hvstep [] p rs v -> nth_error v j = Some (Some VPlotEmpty) -> hrun store0 (p ++ [Call j c c32 r]) = UB.
Proof.
  intros p rs v j c c32 r R Q. destruct (run_plain _ _ _ R) as (s & A & E & (I & _) & _). rewrite (exec_app _ _ _ _ _ E). destruct (inv_get hblocks hrep s v j _ I Q) as (o & Qo & Ro & Go). cbn [hrep] in Ro. subst o.
  unfold hrun. cbn [exec hstep]. rewrite Go. reflexivity.
Qed.
(** ... a String (a message, a name) that was moved from has no text: showing and
    copying it are undefined ... *)
Theorem C80_moved_string_refuted : forall p rs v j, vruns hvstep [] p rs v -> nth_error v j = Some (Some VMoved) ->
  hrun store0 (p ++ [What j]) = UB /\ hrun store0 (p ++ [CopyStr j]) = UB.
Proof.
  intros p rs v j R Q. destruct (run_plain _ _ _ R) as (s & A & E & (I & _) & _). rewrite !(exec_app _ _ _ _ _ E). destruct (inv_get hblocks hrep s v j _ I Q) as (o & Qo & Ro & Go). cbn [hrep] in Ro. subst o.
  unfold hrun. cbn [exec hstep]. rewrite Go. split; reflexivity.
Qed.
Example C80_moved_string_case : exists rs v, vruns hvstep [] [OpenPlot 1 true (Some [7]%Z); MoveNew 0] rs v /\ nth_error v 0 = Some (Some VMoved).
Proof. eexists _, _. split; [eapply VR_step; [eapply H_open_plot_fails|eapply VR_step; [eapply H_move_new; reflexivity|apply VR_done]]|reflexivity]. Qed.
(** ... and a move of an object onto itself loses it. *)
Lemma self_move s j o : nth_error (st_objs s) j = Some (Some o) -> get_obj s j = OK o ->
  hrun s [MoveTo j j] = OK ({| st_heap := st_heap s; st_objs := replace (st_objs s) j (Some (obj_moved o)) |}, [HDone]).
Proof.
  intros Qo Go. pose proof (nth_lt _ _ _ Qo) as L. unfold hrun. cbn [exec hstep]. rewrite Go. cbn [bind]. replace (same_class o o) with true by (destruct o; reflexivity). unfold put_obj. rewrite aset_replace by exact L. cbn [bind st_objs st_heap]. rewrite aset_replace by (rewrite replace_length; exact L). cbn [bind].
  do 3 f_equal. clear. generalize (st_objs s). intros l. revert j. induction l as [|x l IH]; intros [|j]; cbn; try reflexivity. f_equal. apply IH.
Qed.
Lemma get_replaced (h : heap) (l : list (option obj)) j o x : nth_error l j = Some x -> get_obj {| st_heap := h; st_objs := replace l j (Some o) |} j = OK o.
Proof. intros Q. unfold get_obj. cbn [st_objs]. rewrite (proj2 (aget_OK _ _ _) (nth_replace_eq _ _ _ (nth_lt _ _ _ Q))). reflexivity. Qed.
Theorem C80_self_move_refuted : forall p rs v j e c c32 r, vruns hvstep [] p rs v -> nth_error v j = Some (Some (VPlot e)) -> hrun store0 (p ++ [MoveTo j j; Call j c c32 r]) = UB.
Proof.
  intros p rs v j e c c32 r R Q. destruct (run_plain _ _ _ R) as (s & A & E & (I & _) & _). rewrite (exec_app _ _ _ _ _ E). destruct (inv_get hblocks hrep s v j _ I Q) as (o & Qo & (a & -> & _) & Go).
  change [MoveTo j j; Call j c c32 r] with ([MoveTo j j] ++ [Call j c c32 r]). rewrite (exec_app _ _ _ _ _ (self_move _ _ _ Qo Go)). unfold hrun. cbn [exec hstep]. rewrite (get_replaced _ _ _ _ _ Qo). reflexivity.
Qed.
Theorem C80_self_move_names_refuted : forall p rs v j n ns e k, vruns hvstep [] p rs v -> nth_error v j = Some (Some (VBin n ns e)) -> hrun store0 (p ++ [MoveTo j j; Child j k]) = UB.
Proof.
  intros p rs v j n ns e k R Q. destruct (run_plain _ _ _ R) as (s & A & E & (I & _) & _). rewrite (exec_app _ _ _ _ _ E). destruct (inv_get hblocks hrep s v j _ I Q) as (o & Qo & (a & -> & _) & Go).
  change [MoveTo j j; Child j k] with ([MoveTo j j] ++ [Child j k]). rewrite (exec_app _ _ _ _ _ (self_move _ _ _ Qo Go)). unfold hrun. cbn [exec hstep]. rewrite (get_replaced _ _ _ _ _ Qo). cbn [bind obj_moved bin_zero b_dir flat_map]. destruct k; reflexivity.
Qed.
Example C80_refuted_cases : hrun store0 [OpenPlot 1 false None; MoveNew 0; Call 0 false false None] = UB /\ hrun store0 [OpenPlot 1 false None; MoveTo 0 0; Call 0 true true None] = UB.
Proof. split; vm_compute; reflexivity. Qed.

Definition C80_dir : list tree := [TFolder [97]%Z [TFile [98]%Z; TFolder [99]%Z [TFile [100]%Z]]; TFile [101]%Z].
Definition C80_prog : list hop :=
  [OpenBin C80_dir 2 None; OpenPlot 3 false None; Child 0 2; Call 0 false false (Some [7]%Z); What 3; MoveNew 0; What 3; What 2;
   CopyStr 3; Call 4 false false None; What 5; OpenPlot 1 true (Some [8; 9]%Z); What 6; Call 1 true true (Some [6]%Z); What 7; Destroy 4; Destroy 0; Call 1 true false None; Destroy 1; What 5].
Example C80_case : exists s, hrun store0 C80_prog = OK (s, [HDone; HDone; HDone; HThrown; HText [7]; HDone; HText [7]; HText [99]; HDone; HDone; HText [7]; HThrown; HText [8; 9]; HThrown; HText [6]; HDone; HDone; HDone; HDone; HText [7]]%Z).
Proof. eexists. vm_compute. reflexivity. Qed.
Ltac vgo c := eapply VR_step; [eapply c; (reflexivity || discriminate || exact Logic.I)|].
Example C80_case_hypotheses : exists rs v, vruns hvstep [] C80_prog rs v.
Proof.
  eexists _, _. unfold C80_prog.
  vgo H_open_bin. vgo H_open_plot. vgo H_child. vgo H_read_bin_fails. vgo H_what. vgo H_move_new. vgo H_what. vgo H_what. vgo H_copy. vgo H_read_bin. vgo H_what. vgo H_open_plot_fails. vgo H_what. vgo H_read_plot_fails. vgo H_what. vgo H_destroy. vgo H_destroy. vgo H_read_plot. vgo H_destroy. vgo H_what.
  apply VR_done.
Qed.

(** ** C81: messages and names *)

(** Operations that leave object [x] alone ... *)
Definition spares (x : nat) (o : hop) : Prop :=
  match o with Destroy i | MoveNew i => i <> x | MoveTo i k => i <> x /\ k <> x | _ => True end.
(** ... and that do not read through handle [j]. *)
Definition no_read (j : nat) (o : hop) : Prop := match o with Call i _ _ _ => i <> j | _ => True end.


Lemma every_id g v i w : nth_error v i = Some (Some w) -> g w = w -> nth_error (everywhere g v) i = Some (Some w).
Proof. intros Q E. apply every_nth. eauto. Qed.
Lemma app_id (v l : list (option hval)) i w : nth_error v i = Some w -> nth_error (v ++ l) i = Some w.
Proof. intros Q. rewrite nth_error_app1 by (eapply nth_lt; eauto). exact Q. Qed.
Lemma rep_id (v : list (option hval)) i j w y : nth_error v i = Some w -> i <> j -> nth_error (replace v j y) i = Some w.
Proof. intros Q N. rewrite nth_replace_neq by auto. exact Q. Qed.
(** A step that spares a text changes it only through the handle that lends it. *)
Definition stays (K : lent) (j : nat) (o : hop) : Prop := spares j o /\ (K = OfError -> no_read j o).
Definition lender (w : hval) (o : hop) : Prop := match w with VText _ | VLit _ => True | VView K (Some j) _ => stays K j o | _ => False end.
Lemma lender_step v o r v' x w : hvstep v o r v' -> spares x o -> nth_error v x = Some (Some w) -> lender w o -> nth_error v' x = Some (Some w).
Proof.
  intros St Sp Q L.
  assert (Ne : forall k y, nth_error v k = Some (Some y) -> (forall t, text_of y <> Some t) -> x <> k).
  { intros k y Qk Nt ->. rewrite Q in Qk. injection Qk as <-. destruct w; try (destruct L; fail); cbn [text_of] in Nt; try (eapply Nt; reflexivity). destruct owner; [eapply Nt; reflexivity|destruct L]. }
  destruct St; cbn [spares] in Sp; try (apply app_id; exact Q); try exact Q.
  - apply rep_id; [|eapply Ne; eauto; discriminate]. apply every_id; [exact Q|]. destruct w; try reflexivity. destruct k; [|reflexivity]. destruct owner as [k|]; [|reflexivity]. destruct L as (_ & L). specialize (L eq_refl). cbn in L. cbn. destruct (Nat.eqb_spec k j); [congruence|reflexivity].
  - apply app_id. apply rep_id; [|eapply Ne; eauto; discriminate]. apply every_id; [exact Q|]. destruct w; try reflexivity. destruct k; [|reflexivity]. destruct owner as [k|]; [|reflexivity]. destruct L as (_ & L). specialize (L eq_refl). cbn in L. cbn. destruct (Nat.eqb_spec k j); [congruence|reflexivity].
  - apply rep_id; [|eapply Ne; eauto; discriminate]. apply every_id; [exact Q|]. destruct w; try reflexivity. destruct k; [|reflexivity]. destruct owner as [k|]; [|reflexivity]. destruct L as (_ & L). specialize (L eq_refl). cbn in L. cbn. destruct (Nat.eqb_spec k j); [congruence|reflexivity].
  - apply app_id. apply rep_id; [|eapply Ne; eauto; discriminate]. apply every_id; [exact Q|]. destruct w; try reflexivity. destruct k; [|reflexivity]. destruct owner as [k|]; [|reflexivity]. destruct L as (_ & L). specialize (L eq_refl). cbn in L. cbn. destruct (Nat.eqb_spec k j); [congruence|reflexivity].
  - apply every_id; [apply app_id, rep_id; auto|]. destruct w; try reflexivity. destruct owner as [k0|]; [|reflexivity]. destruct L as (L & _). cbn in L. cbn. destruct (Nat.eqb_spec k0 j); [congruence|reflexivity].
  - destruct Sp as (Sp1 & Sp2). apply every_id; [apply rep_id; [apply rep_id; [apply every_id; [exact Q|]|auto]|auto]|]; (destruct w; try reflexivity; destruct owner as [k0|]; [|reflexivity]; destruct L as (L & _); cbn in L; cbn).
    + destruct (Nat.eqb_spec k0 i); [destruct L; congruence|reflexivity].
    + destruct (Nat.eqb_spec k0 j); [destruct L; congruence|reflexivity].
  - apply rep_id; [|auto]. apply every_id; [exact Q|]. destruct w; try reflexivity. destruct owner as [k0|]; [|reflexivity]. destruct L as (L & _). cbn in L. cbn. destruct (Nat.eqb_spec k0 j); [congruence|reflexivity].
Qed.
Lemma lender_runs v q rs v' x w : vruns hvstep v q rs v' -> Forall (spares x) q -> Forall (lender w) q -> nth_error v x = Some (Some w) -> nth_error v' x = Some (Some w).
Proof.
  induction 1 as [|v o r v' t rs v'' St _ IH]; intros Sp L Q; [exact Q|]. inversion Sp; subst. inversion L; subst. apply IH; auto. eapply lender_step; eauto.
Qed.
Lemma step_runs {V O R : Type} (step : V -> O -> R -> V -> Prop) v o r v' : step v o r v' -> vruns step v [o] [r] v'.
Proof. intros St. eapply VR_step; [exact St|apply VR_done]. Qed.
Lemma shown p rs v x w t : vruns hvstep [] p rs v -> nth_error v x = Some (Some w) -> text_of w = Some t -> exists s, hrun store0 (p ++ [What x]) = OK (s, rs ++ [HText t]).
Proof. intros R Q T. eapply C80_handles_partial. eapply vruns_app; [exact R|]. apply step_runs. eapply H_what; eauto. Qed.

(** A read that fails throws a new object with the message ... *)
Lemma call_throws v j c c32 m v1 r : hvstep v (Call j c c32 (Some m)) r v1 -> r = HThrown /\ nth_error v1 (length v) = Some (Some (VView OfError (Some j) m)).
Proof. inversion 1; subst; (split; [reflexivity|]); rewrite nth_error_app2; rewrite ?replace_length, ?every_length, ?Nat.sub_diag; reflexivity || lia. Qed.
(** ... which is there until the same handle is read again, destroyed or
    moved, whatever happens to all others. *)
Theorem C81_message_partial : forall p rs v j c c32 m r v1 q rs' v2,
  vruns hvstep [] p rs v -> hvstep v (Call j c c32 (Some m)) r v1 -> vruns hvstep v1 q rs' v2 ->
  Forall (fun o => spares (length v) o /\ spares j o /\ no_read j o) q ->
  exists s, hrun store0 (p ++ [Call j c c32 (Some m)] ++ q ++ [What (length v)]) = OK (s, rs ++ [HThrown] ++ rs' ++ [HText m]).
Proof.
  intros p rs v j c c32 m r v1 q rs' v2 R St Q F. destruct (call_throws _ _ _ _ _ _ _ St) as (-> & Qx).
  rewrite !app_assoc. eapply (shown _ _ _ _ (VView OfError (Some j) m)); [eapply vruns_app; [eapply vruns_app; [exact R|apply step_runs; exact St]|exact Q]| |reflexivity].
  eapply lender_runs; [exact Q| | |exact Qx]; eapply Forall_impl; try exact F; cbn; intros o (A & B & C); auto. split; auto.
Qed.
(** Moving the handle keeps it readable. *)
Theorem C81_message_moves_partial : forall p rs v j c c32 m r v1 q rs' v2 r' v3 q' rs'' v4,
  vruns hvstep [] p rs v -> hvstep v (Call j c c32 (Some m)) r v1 -> vruns hvstep v1 q rs' v2 ->
  Forall (fun o => spares (length v) o /\ spares j o /\ no_read j o) q ->
  hvstep v2 (MoveNew j) r' v3 -> vruns hvstep v3 q' rs'' v4 ->
  Forall (fun o => spares (length v) o /\ spares (length v2) o /\ no_read (length v2) o) q' ->
  exists s, hrun store0 (p ++ [Call j c c32 (Some m)] ++ q ++ [MoveNew j] ++ q' ++ [What (length v)]) = OK (s, rs ++ [HThrown] ++ rs' ++ [HDone] ++ rs'' ++ [HText m]).
Proof.
  intros p rs v j c c32 m r v1 q rs' v2 r' v3 q' rs'' v4 R St Q F St' Q' F'. destruct (call_throws _ _ _ _ _ _ _ St) as (-> & Qx).
  assert (Q2 : nth_error v2 (length v) = Some (Some (VView OfError (Some j) m))).
  { eapply lender_runs; [exact Q| | |exact Qx]; eapply Forall_impl; try exact F; cbn; intros o (A & B & C); auto. split; auto. }
  assert (Q3 : r' = HDone /\ nth_error v3 (length v) = Some (Some (VView OfError (Some (length v2)) m))).
  { inversion St'; subst. split; [reflexivity|]. apply every_nth. exists (VView OfError (Some j) m). split; [|cbn; rewrite Nat.eqb_refl; reflexivity]. apply app_id, rep_id; [exact Q2|]. intros <-.
    destruct (run_plain _ _ _ (vruns_app _ _ _ _ _ _ _ _ R (vruns_app _ _ _ _ _ _ _ _ (step_runs _ _ _ _ _ St) Q))) as (s & A & _ & (_ & Vw & _) & _).
    destruct (Vw _ _ _ _ Q2) as (p0 & o & w0 & _ & _ & Qw & Sr). destruct (src_handle _ _ _ _ _ Sr) as (N & _). rewrite Q2 in Qw. injection Qw as <-. eapply N. reflexivity. }
  destruct Q3 as (-> & Q3). rewrite !app_assoc. eapply (shown _ _ _ _ (VView OfError (Some (length v2)) m)); [eapply vruns_app; [eapply vruns_app; [eapply vruns_app; [eapply vruns_app; [exact R|apply step_runs; exact St]|exact Q]|apply step_runs; exact St']|exact Q']| |reflexivity].
  eapply lender_runs; [exact Q'| | |exact Q3]; eapply Forall_impl; try exact F'; cbn; intros o (A & B & C); auto. split; auto.
Qed.
(** A copy, and the message of an open that failed, do not depend on any
    handle. *)
Theorem C81_copy : forall p rs v x r v1 q rs' v2 w t,
  vruns hvstep [] p rs v -> nth_error v x = Some (Some w) -> text_of w = Some t -> hvstep v (CopyStr x) r v1 -> vruns hvstep v1 q rs' v2 ->
  Forall (spares (length v)) q -> exists s, hrun store0 (p ++ [CopyStr x] ++ q ++ [What (length v)]) = OK (s, rs ++ [r] ++ rs' ++ [HText t]).
Proof.
  intros p rs v x r v1 q rs' v2 w t R Qw Et St Q F. rewrite !app_assoc. eapply (shown _ _ _ _ (VText t)); [eapply vruns_app; [eapply vruns_app; [exact R|apply step_runs; exact St]|exact Q]| |reflexivity].
  eapply (lender_runs _ _ _ _ _ (VText t)); [exact Q|exact F|apply Forall_forall; intros; exact Logic.I|]. inversion St; subst. rewrite Qw in *. match goal with E : Some (Some w) = Some (Some _) |- _ => injection E as <- end. rewrite nth_error_app2, Nat.sub_diag by lia. cbn. congruence.
Qed.
Theorem C81_open_message : forall p rs v o m r v1 q rs' v2, (exists n bf, o = OpenPlot n bf (Some m)) \/ (exists ts n, o = OpenBin ts n (Some m)) ->
  vruns hvstep [] p rs v -> hvstep v o r v1 -> vruns hvstep v1 q rs' v2 ->
  Forall (spares (length v)) q -> exists s, hrun store0 (p ++ [o] ++ q ++ [What (length v)]) = OK (s, rs ++ [HThrown] ++ rs' ++ [HText m]).
Proof.
  intros p rs v o m r v1 q rs' v2 Ho R St Q F.
  assert (X : r = HThrown /\ v1 = v ++ [Some (VText m)]) by (destruct Ho as [(n & bf & ->)|(ts & n & ->)]; inversion St; subst; auto). destruct X as (-> & ->).
  rewrite !app_assoc. eapply (shown _ _ _ _ (VText m)); [eapply vruns_app; [eapply vruns_app; [exact R|apply step_runs; exact St]|exact Q]| |reflexivity].
  eapply (lender_runs _ _ _ _ _ (VText m)); [exact Q|exact F|apply Forall_forall; intros; exact Logic.I|]. rewrite nth_error_app2, Nat.sub_diag by lia. reflexivity.
Qed.
(** The name of an entry is there until its Binout is destroyed or moved; reads
    do not matter. *)
Theorem C81_name_partial : forall p rs v j n ns e k t r v1 q rs' v2,
  vruns hvstep [] p rs v -> nth_error v j = Some (Some (VBin n ns e)) -> nth_error ns k = Some t -> hvstep v (Child j k) r v1 -> vruns hvstep v1 q rs' v2 ->
  Forall (fun o => spares (length v) o /\ spares j o) q ->
  exists s, hrun store0 (p ++ [Child j k] ++ q ++ [What (length v)]) = OK (s, rs ++ [r] ++ rs' ++ [HText t]).
Proof.
  intros p rs v j n ns e k t r v1 q rs' v2 R Qj Qk St Q F. rewrite !app_assoc. eapply (shown _ _ _ _ (VView OfName (Some j) t)); [eapply vruns_app; [eapply vruns_app; [exact R|apply step_runs; exact St]|exact Q]| |reflexivity].
  eapply (lender_runs _ _ _ _ _ (VView OfName (Some j) t)); [exact Q| | |].
  - eapply Forall_impl; try exact F; cbn; intros o (A & B); auto.
  - eapply Forall_impl; try exact F; cbn; intros o (A & B). split; [exact B|discriminate].
  - inversion St; subst. rewrite nth_error_app2, Nat.sub_diag by lia. cbn. congruence.
Qed.

(** What is missing: in every program, a message is gone when its handle is
    read again - successfully or not - ... *)
Lemma what_freed s x b o : nth_error (st_objs s) x = Some (Some (view (Some (b, o)))) -> nth_error (st_heap s) b = Some None -> hrun s [What x] = UB.
Proof.
  intros Q F. unfold hrun. cbn [exec hstep]. unfold get_obj. rewrite (proj2 (aget_OK _ _ _) Q). cbn [bind view s_read s_data str_read]. rewrite (proj2 (aget_OK _ _ _) F). reflexivity.
Qed.
Lemma src_some s v A i K k t : H s v A -> nth_error v i = Some (Some (VView K (Some k) t)) -> exists b o w, nth_error (st_objs s) i = Some (Some (view (Some (b, 0)))) /\
  nth_error (st_objs s) k = Some (Some o) /\ nth_error v k = Some (Some w) /\ src K o w (Some (b, 0)) t /\ hrep (st_heap s) o w /\ get_obj s k = OK o.
Proof.
  intros (I & Vw & _) Q. destruct (Vw _ _ _ _ Q) as (p & o & w & Qi & Qo & Qw & Sr). destruct (inv_get hblocks hrep s v k _ I Qw) as (o' & Qo' & Ro & Go). rewrite Qo in Qo'. injection Qo' as <-.
  pose proof (src_read _ _ _ _ _ _ Ro Sr) as Rd. destruct p as [[b z]|]; [|destruct Rd]. destruct Rd as (-> & _). eauto 10.
Qed.
Theorem C81_stale_message_refuted : forall p rs v x j m c c32 r, vruns hvstep [] p rs v -> nth_error v x = Some (Some (VView OfError (Some j) m)) ->
  hrun store0 (p ++ [Call j c c32 r; What x]) = UB.
Proof.
  intros p rs v x j m c c32 r R Q. destruct (run_plain _ _ _ R) as (s & A & E & Hs & _). rewrite (exec_app _ _ _ _ _ E). destruct (src_some _ _ _ _ _ _ _ Hs Q) as (b & o & w & Qx & Qo & Qw & (Er & Ev) & Ro & Go).
  assert (Ne : x <> j) by (intros ->; rewrite Qx in Qo; injection Qo as <-; discriminate). pose proof (nth_lt _ _ _ Qo) as Lo.
  assert (X : exists s' r', hstep s (Call j c c32 r) = OK (s', r') /\ nth_error (st_objs s') x = Some (Some (view (Some (b, 0)))) /\ nth_error (st_heap s') b = Some None).
  { cbn [hstep]. rewrite Go. cbn [bind]. destruct w; try discriminate; cbn [hrep] in Ro.
    - destruct Ro as (a & -> & G & K & D & _). cbn [obj_err] in Er. destruct (call_plot_ok (st_heap s) a c c32 r G K D) as (h1 & h & a' & n & Ec & W & L1 & F1 & _). rewrite Ec. cbn [bind]. unfold put_obj. rewrite aset_replace by exact Lo. cbn [bind].
      assert (Fb : nth_error h b = Some None). { rewrite (gr_old _ _ _ W); [apply F1; rewrite Er; left; reflexivity|]. rewrite L1. specialize (F1 b). rewrite Er in F1. specialize (F1 (or_introl eq_refl)). apply nth_lt in F1. lia. }
      destruct r; eexists _, _; (split; [reflexivity|]); cbn [thrown new_obj st_objs st_heap]; (split; [|exact Fb]); [rewrite nth_error_app1 by (rewrite replace_length; eapply nth_lt; eauto)|]; rewrite nth_replace_neq by auto; exact Qx.
    - destruct Ro as (a & -> & G & K & _). cbn [obj_err] in Er. destruct (call_bin_ok (st_heap s) a r G) as (h1 & h & e' & Ec & W & L1 & F1 & _). rewrite Ec. cbn [bind]. unfold put_obj. rewrite aset_replace by exact Lo. cbn [bind].
      assert (Fb : nth_error h b = Some None). { rewrite (gr_old _ _ _ W); [apply F1; rewrite Er; left; reflexivity|]. rewrite L1. specialize (F1 b). rewrite Er in F1. specialize (F1 (or_introl eq_refl)). apply nth_lt in F1. lia. }
      destruct r; eexists _, _; (split; [reflexivity|]); cbn [thrown new_obj st_objs st_heap]; (split; [|exact Fb]); [rewrite nth_error_app1 by (rewrite replace_length; eapply nth_lt; eauto)|]; rewrite nth_replace_neq by auto; exact Qx. }
  destruct X as (s' & r' & Es & Qx' & Fb). change [Call j c c32 r; What x] with ([Call j c c32 r] ++ [What x]). rewrite (exec_app _ _ s s' [r']), (what_freed _ _ _ _ Qx' Fb); [reflexivity|]. unfold hrun. cbn [exec]. rewrite Es. reflexivity.
Qed.
(** ... and, like the names, when its handle is destroyed. *)
Lemma src_blocks K h o w b t : hrep h o w -> src K o w (Some (b, 0)) t -> In b (hblocks o).
Proof.
  intros Ro Sr. destruct K.
  - destruct Sr as (Er & Ev). destruct w; try discriminate; destruct Ro as (a & -> & _); cbn [obj_err hblocks] in *; [apply d_err_blocks|apply b_err_blocks]; rewrite Er; left; reflexivity.
  - destruct Sr as (n & Q1 & Q2). destruct w; try (destruct n; discriminate). destruct Ro as (a & -> & _). cbn [obj_names hblocks] in *. apply b_rest_blocks, names_blocks. apply in_ptr_blocks. exists 0. eapply nth_error_In; eauto.
Qed.
Theorem C81_destroyed_refuted : forall p rs v x K j t, vruns hvstep [] p rs v -> nth_error v x = Some (Some (VView K (Some j) t)) ->
  hrun store0 (p ++ [Destroy j; What x]) = UB.
Proof.
  intros p rs v x K j t R Q. destruct (run_plain _ _ _ R) as (s & A & E & Hs & _). rewrite (exec_app _ _ _ _ _ E). destruct (src_some _ _ _ _ _ _ _ Hs Q) as (b & o & w & Qx & Qo & Qw & Sr & Ro & Go).
  assert (Ne : x <> j). { intros ->. rewrite Qx in Qo. injection Qo as <-. destruct (src_handle _ _ _ _ _ Sr) as (N & _). rewrite Q in Qw. injection Qw as <-. eapply N. reflexivity. }
  pose proof (nth_lt _ _ _ Qo) as Lo. pose proof (src_blocks _ _ _ _ _ _ Ro Sr) as Ib. destruct Hs as (I & Vw & Ar).
  assert (X : exists h, obj_destroy (st_heap s) o = OK h /\ (forall b, In b (hblocks o) -> nth_error h b = Some None)).
  { destruct (src_handle _ _ _ _ _ Sr) as (N1 & N2 & N3 & N4). destruct w; try congruence; try (exfalso; eapply N1; reflexivity); try (exfalso; eapply (proj1 (N3 _)); reflexivity); try (exfalso; eapply (proj2 (N3 _)); reflexivity); cbn [hrep] in Ro.
    - destruct Ro as (a & -> & G & K0 & _). destruct (d3_close_ok _ _ G K0) as (h' & Ec & _ & F & _). exists h'. cbn [obj_destroy]. rewrite Ec. auto.
    - destruct Ro as (a & -> & G & K0 & _). destruct (bin_close_ok _ _ G K0) as (h' & Ec & _ & F & _); [|exists h'; cbn [obj_destroy]; rewrite Ec; auto].
      intros b0 q Ef. destruct Ar as (_ & Al & Ab). destruct (Al b0 (Ab j a b0 q Qo Ef)) as (Lv & No). split; [exact Lv|]. exact (No j _ Qo). }
  destruct X as (h & Eh & F). set (s' := {| st_heap := h; st_objs := replace (st_objs s) j None |}).
  assert (Es : hrun s [Destroy j] = OK (s', [HDone])). { unfold hrun. cbn [exec hstep]. rewrite Go. cbn [bind]. rewrite Eh. cbn [bind]. unfold put_obj. rewrite aset_replace by exact Lo. reflexivity. }
  change [Destroy j; What x] with ([Destroy j] ++ [What x]). rewrite (exec_app _ _ s s' [HDone] Es). rewrite (what_freed s' x b 0); [reflexivity| |exact (F b Ib)]. cbn [s' st_objs]. rewrite nth_replace_neq by auto. exact Qx.
Qed.

(** Cases. *)
Definition C81_before : list hop := [OpenPlot 2 false None; OpenBin C80_dir 1 None].
Example C81_case_hypotheses : exists rs v r v1 rs' v2, vruns hvstep [] C81_before rs v /\ hvstep v (Call 0 true false (Some [5]%Z)) r v1 /\
  vruns hvstep v1 [Call 1 false false (Some [6]%Z); Destroy 1; OpenPlot 1 false None; Destroy 3] rs' v2 /\
  Forall (fun o => spares (length v) o /\ spares 0 o /\ no_read 0 o) [Call 1 false false (Some [6]%Z); Destroy 1; OpenPlot 1 false None; Destroy 3] /\ nth_error v1 2 = Some (Some (VView OfError (Some 0) [5]%Z)).
Proof.
  eexists _, _, _, _, _, _. split; [unfold C81_before; vgo H_open_plot; vgo H_open_bin; apply VR_done|]. split; [eapply H_read_plot_fails; reflexivity|]. split; [vgo H_read_bin_fails; vgo H_destroy; vgo H_open_plot; vgo H_destroy; apply VR_done|].
  split; [|reflexivity]. repeat constructor; cbn; lia.
Qed.
Example C81_moves_hypotheses : exists rs v r v1 r' v3 rs'' v4, vruns hvstep [] C81_before rs v /\ hvstep v (Call 1 true false (Some [5]%Z)) r v1 /\ vruns hvstep v1 [] [] v1 /\
  hvstep v1 (MoveNew 1) r' v3 /\ vruns hvstep v3 [Destroy 1; Call 0 false false None] rs'' v4 /\
  Forall (fun o => spares (length v) o /\ spares (length v1) o /\ no_read (length v1) o) [Destroy 1; Call 0 false false None].
Proof.
  eexists _, _, _, _, _, _, _, _. split; [unfold C81_before; vgo H_open_plot; vgo H_open_bin; apply VR_done|]. split; [eapply H_read_bin_fails; reflexivity|]. split; [apply VR_done|]. split; [eapply H_move_new; reflexivity|].
  split; [vgo H_destroy; vgo H_read_plot; apply VR_done|]. repeat constructor; cbn; lia.
Qed.
Example C81_name_hypotheses : exists rs v r v1 rs' v2, vruns hvstep [] C81_before rs v /\ nth_error v 1 = Some (Some (VBin 1 (flat_map tree_names C80_dir) None)) /\ nth_error (flat_map tree_names C80_dir) 3 = Some [100]%Z /\
  hvstep v (Child 1 3) r v1 /\ vruns hvstep v1 [Call 1 false false (Some [6]%Z); Call 1 false false None; Destroy 0] rs' v2 /\
  Forall (fun o => spares (length v) o /\ spares 1 o) [Call 1 false false (Some [6]%Z); Call 1 false false None; Destroy 0].
Proof.
  eexists _, _, _, _, _, _. split; [unfold C81_before; vgo H_open_plot; vgo H_open_bin; apply VR_done|]. split; [reflexivity|]. split; [reflexivity|]. split; [eapply H_child; reflexivity|].
  split; [vgo H_read_bin_fails; vgo H_read_bin; vgo H_destroy; apply VR_done|]. repeat constructor; cbn; lia.
Qed.
Example C81_stale_case : hrun store0 [OpenPlot 2 false None; Call 0 false false (Some [5]%Z); Call 0 false false None; What 1] = UB.
Proof. vm_compute. reflexivity. Qed.
Example C81_destroyed_case : hrun store0 [OpenBin C80_dir 1 None; Child 0 1; Destroy 0; What 1] = UB.
Proof. vm_compute. reflexivity. Qed.

(** ** C82: their memory *)

(** When every object is gone, what is left are the arrays of files of the
    Binouts, one for each that was opened. *)
Theorem C82_memory_partial : forall prog rs v', vruns (such_that hvstep no_overwrite) [] prog rs v' -> Forall (fun o => o = None) v' ->
  exists s' lost, hrun store0 prog = OK (s', rs) /\ NoDup lost /\ length lost = binouts prog /\ forall b, live s' b <-> In b lost.
Proof.
  intros prog rs v' R G. destruct (runs_ok no_overwrite prog [] rs v' R store0 [] H0) as (s' & A' & E & (I & _ & (N & Al & _)) & L & Ac). exists s', A'. split; [exact E|]. split; [exact N|]. split; [exact L|].
  intros b. split; [|intros Ib; apply (Al b Ib)]. intros Lv. destruct (Ac (fun _ _ X => X) acc0 b Lv) as [Ib|(j & o & Qo & Ib)]; [exact Ib|]. exfalso. destruct o as [o|]; [|destruct Ib].
  destruct I as (Le & Rp & _). destruct (nth_error v' j) as [w|] eqn:Qw; [|apply nth_error_None in Qw; apply nth_lt in Qo; lia]. specialize (Rp _ _ _ Qo Qw). rewrite Forall_forall in G. rewrite (G w (nth_error_In _ _ Qw)) in Rp. exact Rp.
Qed.
Theorem C82_plots : forall prog rs v', vruns (such_that hvstep no_overwrite) [] prog rs v' -> Forall (fun o => o = None) v' ->
  (forall ts n r, In (OpenBin ts n r) prog -> n = 0) -> exists s', hrun store0 prog = OK (s', rs) /\ forall b, ~ live s' b.
Proof.
  intros prog rs v' R G Nb. destruct (C82_memory_partial _ _ _ R G) as (s' & lost & E & _ & L & Lv). exists s'. split; [exact E|]. intros b X. apply Lv in X.
  assert (B : binouts prog = 0). { unfold binouts. replace (filter _ prog) with (@nil hop); [reflexivity|]. symmetry. clear -Nb. induction prog as [|o t IH]; [reflexivity|]. cbn [filter]. destruct o as [| ts [|n] r| | | | | | | | | ]; try (apply IH; intros; eapply Nb; right; eauto; fail).
    exfalso. specialize (Nb ts (S n) r (or_introl eq_refl)). discriminate. }
  destruct lost; [destruct X|cbn in L; lia].
Qed.
(** What is missing: a Binout never frees that array, ... *)
Theorem C82_binout_refuted : forall prog rs v', vruns hvstep [] prog rs v' -> 0 < binouts prog -> exists s' b, hrun store0 prog = OK (s', rs) /\ live s' b.
Proof.
  intros prog rs v' R Nb. destruct (run_plain _ _ _ R) as (s' & A' & E & (_ & _ & (_ & Al & _)) & L). destruct A' as [|b A']; [cbn in L; lia|]. exists s', b. split; [exact E|]. apply (Al b). left. reflexivity.
Qed.
(** ... and an assignment to a D3plot that is open loses all it had. *)
Theorem C82_assignment_refuted : forall n bf n' bf', exists s b,
  hrun store0 [OpenPlot n bf None; OpenPlot n' bf' None; MoveTo 0 1; Destroy 0; Destroy 1] = OK (s, [HDone; HDone; HDone; HDone; HDone]) /\ live s b.
Proof.
  intros n bf n' bf'.
  destruct (run_plain [OpenPlot n bf None; OpenPlot n' bf' None] [HDone; HDone] [Some (VPlot None); Some (VPlot None)]) as (s & A & E & (I & _) & _); [vgo H_open_plot; vgo H_open_plot; apply VR_done|].
  destruct (inv_get hblocks hrep s _ 0 (VPlot None) I eq_refl) as (o0 & Q0 & (a0 & -> & G0 & _ & D0 & _) & _). destruct (inv_get hblocks hrep s _ 1 (VPlot None) I eq_refl) as (o1 & Q1 & (a1 & -> & G1 & K1 & _) & _).
  assert (Len : length (st_objs s) = 2) by (destruct I as (Le & _); exact Le). destruct (st_objs s) as [|x0 [|x1 [|x2 t]]] eqn:Eo; try discriminate. injection Q0 as ->. injection Q1 as ->.
  destruct (d_data a0) as [[b z]|] eqn:Ed; [|congruence]. assert (Ib : In b (ptr_blocks (d_ptrs a0))). { apply in_ptr_blocks. exists z. unfold d_ptrs. rewrite Ed, !in_app_iff. right. right. left. reflexivity. }
  destruct (good_live _ _ _ G0 Ib) as (c & Qb). destruct (d3_close_ok _ _ G1 K1) as (h & Ec & _ & _ & Fr). destruct I as (_ & _ & Dj).
  exists {| st_heap := h; st_objs := [None; None] |}, b. split.
  - change [OpenPlot n bf None; OpenPlot n' bf' None; MoveTo 0 1; Destroy 0; Destroy 1] with ([OpenPlot n bf None; OpenPlot n' bf' None] ++ [MoveTo 0 1; Destroy 0; Destroy 1]). rewrite (exec_app _ _ _ _ _ E). destruct s as [hs os]. cbn [st_objs st_heap] in *. subst os.
    unfold hrun. cbn. rewrite Ec. reflexivity.
  - exists c. cbn [st_heap]. rewrite Fr; [exact Qb|]. intros I1. rewrite Eo in Dj. exact (Dj 0 1 _ _ b ltac:(lia) eq_refl eq_refl Ib I1).
Qed.

Example C82_case_hypotheses : exists rs v, vruns (such_that hvstep no_overwrite) [] [OpenBin C80_dir 2 None; OpenPlot 3 false None; Call 1 true true (Some [7]%Z); MoveNew 0; MoveTo 0 3; Child 0 1; OpenBin [] 1 (Some [8]%Z); OpenBin [] 0 None;
    Destroy 3; Destroy 0; Destroy 1; Destroy 2; Destroy 4; Destroy 5; Destroy 6] rs v /\ Forall (fun o => o = None) v.
Proof.
  Ltac vno := intros i j x Q; try discriminate.
  Ltac vgo2 c := eapply VR_step; [split; [eapply c; (reflexivity || discriminate || exact Logic.I)|vno]|].
  eexists _, _. split.
  - vgo2 H_open_bin. vgo2 H_open_plot. vgo2 H_read_plot_fails. vgo2 H_move_new. vgo2 H_move_to. { injection Q as <- <-. intros [= <-]. auto. }
    vgo2 H_child. vgo2 H_open_bin_fails. vgo2 H_open_bin. vgo2 H_destroy. vgo2 H_destroy. vgo2 H_destroy. vgo2 H_destroy. vgo2 H_destroy. vgo2 H_destroy. vgo2 H_destroy. apply VR_done.
  - cbn. repeat constructor.
Qed.

(** ** C83: the C functions *)

(** Reads through one handle, one after the other: which coordinates are
    needed, and the message if it fails. *)
Fixpoint plot_calls (h : heap) (a : d3h) (l : list (bool * bool * option (list Z))) : res (heap * d3h) :=
  match l with [] => OK (h, a) | (c, c32, r) :: t => do ' (h, a) <- call_plot h a c c32 r; plot_calls h a t end.
Fixpoint bin_calls (h : heap) (a : binh) (l : list (option (list Z))) : res (heap * binh) :=
  match l with [] => OK (h, a) | r :: t => do ' (h, a) <- call_bin h a r; bin_calls h a t end.
(** Memory [h'] has what [h] has, and beyond it only the blocks [l]. *)
Definition only (h h' : heap) (l : list nat) : Prop :=
  (forall b, b < length h -> nth_error h' b = nth_error h b) /\ (forall b c, length h <= b -> nth_error h' b = Some (Some c) -> In b l).
Lemma only_weaken h h' l l' : only h h' l -> (forall b, In b l -> In b l') -> only h h' l'.
Proof. intros (A & B) W. split; [exact A|]. intros b c L Q. apply W. eapply B; eauto. Qed.
Lemma grow_only h h' ps : grow h h' ps -> only h h' (ptr_blocks ps).
Proof. intros W. split; [apply (gr_old _ _ _ W)|]. intros b c L Q. apply (gr_all _ _ _ W). apply nth_lt in Q. lia. Qed.
Lemma plot_calls_ok h0 l : forall h a, length h0 <= length h -> good h (d_ptrs a) -> d_ok a -> d_data a <> None -> only h0 h (ptr_blocks (d_ptrs a)) -> (forall b, In b (ptr_blocks (d_ptrs a)) -> length h0 <= b) ->
  exists h' a', plot_calls h a l = OK (h', a') /\ good h' (d_ptrs a') /\ d_ok a' /\ d_data a' <> None /\ only h0 h' (ptr_blocks (d_ptrs a')) /\ (forall b, In b (ptr_blocks (d_ptrs a')) -> length h0 <= b) /\ (l <> [] -> srep h' (d_err a') (snd (last l (false, false, None)))).
Proof.
  induction l as [|[[c c32] r] l IH]; intros h a Le G K D Or Ge; [exists h, a; split; [reflexivity|]; do 5 (split; [assumption|]); congruence|].
  destruct (call_plot_ok h a c c32 r G K D) as (h1 & h2 & a2 & n & E & W & L1 & F1 & Fr1 & Gr & Sa & K2 & D2 & R2).
  assert (Bl : forall b, In b (ptr_blocks (d_ptrs a2)) <-> In b (ptr_blocks (d_rest a)) \/ In b (ptr_blocks n)) by (intros b; rewrite (same_blocks _ _ b Sa), ptr_blocks_app, in_app_iff; reflexivity).
  assert (Bd : forall b, In b (ptr_blocks (d_ptrs a)) <-> In b (ptr_blocks [d_err a]) \/ In b (ptr_blocks (d_rest a))) by (intros b; rewrite (same_blocks _ _ b (d_ptrs_same a)); apply in_blocks_cons).
  assert (G2 : good h2 (d_ptrs a2)) by (eapply good_same; [apply same_sym; exact Sa|]; eapply good_grow; eauto).
  pose proof (gr_len _ _ _ W) as Lg.
  destruct (IH h2 a2) as (h' & a' & E' & G' & K' & D' & Or' & Ge' & R'); auto.
  - lia.
  - destruct Or as (Oa & Ob). split.
    + intros b Lb. rewrite (gr_old _ _ _ W) by lia. rewrite Fr1; [auto|]. intros Ib. assert (X : In b (ptr_blocks (d_ptrs a))) by (apply Bd; auto). apply Ge in X. lia.
    + intros b x Lb Q. apply Bl. destruct (Nat.lt_ge_cases b (length h1)) as [Lt|Lt].
      * left. rewrite (gr_old _ _ _ W) in Q by exact Lt. assert (Ne : ~ In b (ptr_blocks [d_err a])) by (intros Ib; rewrite (F1 b Ib) in Q; discriminate). rewrite Fr1 in Q by exact Ne. assert (X := Ob b x Lb Q). apply Bd in X. tauto.
      * right. apply (gr_all _ _ _ W). apply nth_lt in Q. lia.
  - intros b Ib. apply Bl in Ib. destruct Ib as [Ib|Ib]; [apply Ge, Bd; auto|]. apply (gr_all _ _ _ W) in Ib. lia.
  - exists h', a'. split; [cbn [plot_calls]; rewrite E; exact E'|]. split; [exact G'|]. split; [exact K'|]. split; [exact D'|]. split; [exact Or'|]. split; [exact Ge'|]. intros _. destruct l as [|y l].
    + cbn [plot_calls] in E'. injection E' as <- <-. exact R2.
    + apply R'. discriminate.
Qed.
(** d3plot_close releases what d3plot_open and all reads since allocated,
    and nothing else; the next one frees the data pointers again. *)
Theorem C83_plot_close : forall h n bf h1 a l, d3_open h n bf None = (h1, a) ->
  exists h2 a2 h3 a3, plot_calls h1 a l = OK (h2, a2) /\ d3_close h2 a2 = OK (h3, a3) /\ only h h3 [] /\ d_err a3 = None /\ d_list a3 = [].
Proof.
  intros h n bf h1 a l E. destruct (d3_open_ok _ _ _ _ _ _ E) as (W & K & _ & D). specialize (D eq_refl).
  destruct (plot_calls_ok h l h1 a (gr_len _ _ _ W) (grow_good _ _ _ W) K D (grow_only _ _ _ W)) as (h2 & a2 & E2 & G2 & K2 & D2 & (Oa & Ob) & Ge & _).
  { intros b Ib. apply (gr_all _ _ _ W) in Ib. lia. }
  destruct (d3_close_ok _ _ G2 K2) as (h3 & E3 & L3 & F3 & Fr3). exists h2, a2, h3. eexists. split; [exact E2|]. split; [exact E3|]. split; [|split; reflexivity]. split.
  - intros b Lb. rewrite Fr3; [auto|]. intros Ib. apply Ge in Ib. lia.
  - intros b c Lb Q. exfalso. destruct (in_dec Nat.eq_dec b (ptr_blocks (d_ptrs a2))) as [Ib|Ib]; [rewrite (F3 b Ib) in Q; discriminate|]. rewrite Fr3 in Q by exact Ib. exact (Ib (Ob b c Lb Q)).
Qed.
Theorem C83_plot_close_twice_refuted : forall h n bf h1 a l h2 a2 h3 a3, d3_open h n bf None = (h1, a) -> plot_calls h1 a l = OK (h2, a2) -> d3_close h2 a2 = OK (h3, a3) -> d3_close h3 a3 = UB.
Proof.
  intros h n bf h1 a l h2 a2 h3 a3 E E2 E3. destruct (d3_open_ok _ _ _ _ _ _ E) as (W & K & _ & D). specialize (D eq_refl).
  destruct (plot_calls_ok h l h1 a (gr_len _ _ _ W) (grow_good _ _ _ W) K D (grow_only _ _ _ W)) as (h2' & a2' & E2' & G2 & K2 & D2 & _).
  { intros b Ib. apply (gr_all _ _ _ W) in Ib. lia. }
  rewrite E2 in E2'. injection E2' as <- <-. destruct (d3_close_ok _ _ G2 K2) as (h3' & E3' & _ & F3 & _). rewrite E3 in E3'. injection E3' as <- ->.
  destruct (d_data a2) as [[b o]|] eqn:Ed; [|congruence]. assert (Ib : In b (ptr_blocks (d_ptrs a2))). { apply in_ptr_blocks. exists o. unfold d_ptrs. rewrite Ed, !in_app_iff. right. right. left. reflexivity. }
  specialize (F3 b Ib). unfold d3_close. cbn [d_files d_list d_buf_err d_root d_data d_err d_init d_init32 mfiles_close bind h_free_all h_free_opt].
  destruct G2 as (_ & G2). assert (Z0 : o = 0). { apply (G2 b o). apply in_ptr_blocks in Ib. unfold d_ptrs. rewrite Ed, !in_app_iff. right. right. left. reflexivity. } subst o.
  unfold h_free. cbn [fst]. rewrite (proj2 (aget_OK _ _ _) F3). reflexivity.
Qed.
(** A failed d3plot_open has to be closed, too. *)
Theorem C83_failed_plot_close : forall h n bf m h1 a, d3_open h n bf (Some m) = (h1, a) -> exists h2 a2, d3_close h1 a = OK (h2, a2) /\ only h h2 [].
Proof.
  intros h n bf m h1 a E. destruct (d3_open_ok _ _ _ _ _ _ E) as (W & K & _). destruct (d3_close_ok _ _ (grow_good _ _ _ W) K) as (h3 & E3 & L3 & F3 & Fr3). exists h3. eexists. split; [exact E3|]. split.
  - intros b Lb. rewrite Fr3; [apply (gr_old _ _ _ W); exact Lb|]. intros Ib. apply (gr_all _ _ _ W) in Ib. lia.
  - intros b c Lb Q. exfalso. destruct (in_dec Nat.eq_dec b (ptr_blocks (d_ptrs a))) as [Ib|Ib]; [rewrite (F3 b Ib) in Q; discriminate|]. rewrite Fr3 in Q by exact Ib. apply Ib. apply (gr_all _ _ _ W). apply nth_lt in Q. lia.
Qed.
(** binout_close may be called twice, but leaves the array of files. *)
Lemma bin_calls_ok h0 l : forall h a, length h0 <= length h -> good h (b_ptrs a) -> b_ok a -> array_ok h a -> only h0 h (ptr_blocks (b_files a :: b_ptrs a)) -> (forall b, In b (ptr_blocks (b_files a :: b_ptrs a)) -> length h0 <= b) ->
  exists h' a', bin_calls h a l = OK (h', a') /\ good h' (b_ptrs a') /\ b_ok a' /\ array_ok h' a' /\ b_files a' = b_files a /\ only h0 h' (ptr_blocks (b_files a' :: b_ptrs a')) /\ (forall b, In b (ptr_blocks (b_files a' :: b_ptrs a')) -> length h0 <= b).
Proof.
  induction l as [|r l IH]; intros h a Le G K Ar Or Ge; [exists h, a; auto 10|].
  destruct (call_bin_ok h a r G) as (h1 & h2 & e & E & W & L1 & F1 & Fr1 & Gr & R2). set (a2 := bin_set_err a e) in *.
  assert (Sa : same (b_ptrs a2) (b_rest a ++ [e])) by (unfold b_ptrs, b_rest; cbn [a2 bin_set_err b_list b_dir b_arr b_err]; psame).
  assert (Bl : forall b, In b (ptr_blocks (b_ptrs a2)) <-> In b (ptr_blocks (b_rest a)) \/ In b (ptr_blocks [e])) by (intros b; rewrite (same_blocks _ _ b Sa), ptr_blocks_app, in_app_iff; reflexivity).
  assert (Bd : forall b, In b (ptr_blocks (b_ptrs a)) <-> In b (ptr_blocks [b_err a]) \/ In b (ptr_blocks (b_rest a))) by (intros b; rewrite (same_blocks _ _ b (b_ptrs_same a)); apply in_blocks_cons).
  assert (G2 : good h2 (b_ptrs a2)) by (eapply good_same; [apply same_sym; exact Sa|]; eapply good_grow; eauto).
  pose proof (gr_len _ _ _ W) as Lg.
  destruct (IH h2 a2) as (h' & a' & E' & G' & K' & Ar' & Ef' & Or' & Ge'); auto.
  - lia.
  - intros b o Ef. destruct (Ar b o Ef) as ((c & Q) & No). split.
    + exists c. rewrite (gr_old _ _ _ W) by (apply nth_lt in Q; lia). rewrite Fr1; [exact Q|]. intros Ib. apply No, Bd. auto.
    + intros Ib. apply Bl in Ib. destruct Ib as [Ib|Ib]; [apply No, Bd; auto|]. apply (gr_all _ _ _ W) in Ib. apply nth_lt in Q. lia.
  - destruct Or as (Oa & Ob). split.
    + intros b Lb. rewrite (gr_old _ _ _ W) by lia. rewrite Fr1; [auto|]. intros Ib. assert (X : In b (ptr_blocks (b_files a :: b_ptrs a))) by (apply in_blocks_cons; right; apply Bd; auto). apply Ge in X. lia.
    + intros b x Lb Q. apply in_blocks_cons. destruct (Nat.lt_ge_cases b (length h1)) as [Lt|Lt].
      * rewrite (gr_old _ _ _ W) in Q by exact Lt. assert (Ne : ~ In b (ptr_blocks [b_err a])) by (intros Ib; rewrite (F1 b Ib) in Q; discriminate). rewrite Fr1 in Q by exact Ne. assert (X := Ob b x Lb Q). apply in_blocks_cons in X. destruct X as [X|X]; [left; exact X|]. apply Bd in X. right. apply Bl. tauto.
      * right. apply Bl. right. apply (gr_all _ _ _ W). apply nth_lt in Q. lia.
  - intros b Ib. apply in_blocks_cons in Ib. destruct Ib as [Ib|Ib]; [apply Ge, in_blocks_cons; auto|]. apply Bl in Ib. destruct Ib as [Ib|Ib]; [apply Ge, in_blocks_cons; right; apply Bd; auto|]. apply (gr_all _ _ _ W) in Ib. lia.
  - exists h', a'. split; [cbn [bin_calls]; rewrite E; exact E'|]. auto 10.
Qed.
Theorem C83_binout_close_partial : forall h ts n r h1 a l, bin_open h ts n r = (h1, a) ->
  exists h2 a2 h3 a3 lost, bin_calls h1 a l = OK (h2, a2) /\ bin_close h2 a2 = OK (h3, a3) /\ bin_close h3 a3 = OK (h3, a3) /\
  only h h3 lost /\ NoDup lost /\ length lost = (if n =? 0 then 0 else 1) /\ (forall b, In b lost -> length h <= b /\ exists c, nth_error h3 b = Some (Some c)).
Proof.
  intros h ts n r h1 a l E. destruct (bin_open_ok _ _ _ _ _ _ E) as (W & K & Ln & _ & _). pose proof (grow_good _ _ _ W) as G. change (b_files a :: b_ptrs a) with ([b_files a] ++ b_ptrs a) in G. destruct (good_app _ _ _ G) as (Gf & Gp & X).
  assert (Ar : array_ok h1 a). { intros b o Ef. rewrite Ef in X, Gf. split; [apply (proj2 Gf b o); left; reflexivity|]. apply X. left. reflexivity. }
  destruct (bin_calls_ok h l h1 a (gr_len _ _ _ W) Gp K Ar (grow_only _ _ _ W)) as (h2 & a2 & E2 & G2 & K2 & Ar2 & Ef & (Oa & Ob) & Ge).
  { intros b Ib. apply (gr_all _ _ _ W) in Ib. lia. }
  destruct (bin_close_ok _ _ G2 K2 Ar2) as (h3 & E3 & L3 & F3 & Fr3). exists h2, a2, h3, bin_zero, (ptr_blocks [b_files a]). split; [exact E2|]. split; [exact E3|]. split; [reflexivity|]. split; [|split; [|split]].
  - split.
    + intros b Lb. rewrite Fr3; [auto|]. intros Ib. assert (Y : In b (ptr_blocks (b_files a2 :: b_ptrs a2))) by (apply in_blocks_cons; auto). apply Ge in Y. lia.
    + intros b c Lb Q. destruct (in_dec Nat.eq_dec b (ptr_blocks (b_ptrs a2))) as [Ib|Ib]; [rewrite (F3 b Ib) in Q; discriminate|]. rewrite Fr3 in Q by exact Ib. assert (Y := Ob b c Lb Q). apply in_blocks_cons in Y. rewrite Ef in Y. tauto.
  - apply Gf.
  - destruct K as (_ & _ & Kf). destruct (b_files a) as [[b o]|] eqn:Eb; cbn; destruct (Nat.eqb_spec n 0) as [E0|E0]; try reflexivity; exfalso.
    + apply (proj2 Kf); [discriminate|]. destruct (b_list a); [reflexivity|]. cbn in Ln. lia.
    + apply (proj1 Kf); [|reflexivity]. intros E1. rewrite E1 in Ln. cbn in Ln. lia.
  - intros b Ib. apply in_ptr_blocks in Ib. destruct Ib as (o & [Eb|[]]). destruct (Ar2 b o) as (Lv & No); [congruence|]. rewrite Fr3 by exact No. split; [|exact Lv]. apply Ge. rewrite Ef, Eb. left. reflexivity.
Qed.
Theorem C83_binout_close_refuted : forall h ts n r h1 a l h2 a2 h3 a3, bin_open h ts (S n) r = (h1, a) -> bin_calls h1 a l = OK (h2, a2) -> bin_close h2 a2 = OK (h3, a3) -> exists b c, length h <= b /\ nth_error h3 b = Some (Some c).
Proof.
  intros h ts n r h1 a l h2 a2 h3 a3 E E2 E3. destruct (C83_binout_close_partial _ _ _ _ _ _ l E) as (h2' & a2' & h3' & a3' & lost & E2' & E3' & _ & (Oa & _) & _ & Ll & Lv).
  rewrite E2 in E2'. injection E2' as <- <-. rewrite E3 in E3'. injection E3' as <- <-. destruct lost as [|b lost]; [discriminate|]. destruct (Lv b (or_introl eq_refl)) as (Lb & c & Q). eauto.
Qed.
Example C83_case : let '(h1, a) := d3_open [Some [1]%Z] 3 false None in
  match plot_calls h1 a [(true, true, None); (true, false, Some [7; 8]%Z); (false, false, None)] with
  | OK (h2, a2) => match d3_close h2 a2 with OK (h3, a3) => h3 = Some [1]%Z :: repeat None 12 /\ d3_close h3 a3 = UB | _ => False end
  | _ => False
  end.
Proof. vm_compute. split; reflexivity. Qed.
Example C83_binout_case : let '(h1, a) := bin_open [] C80_dir 2 None in
  match bin_calls h1 a [Some [7; 8]%Z; None; Some [9]%Z] with
  | OK (h2, a2) => match bin_close h2 a2 with OK (h3, a3) => h3 = Some [] :: repeat None 14 /\ bin_close h3 a3 = OK (h3, a3) | _ => False end
  | _ => False
  end.
Proof. vm_compute. split; reflexivity. Qed.
Example C81_copy_case : exists s, hrun store0 [OpenPlot 1 false None; Call 0 false false (Some [5]%Z); CopyStr 1; Destroy 0; Destroy 1; OpenPlot 4 true (Some [6; 6]%Z); OpenBin [] 0 None; What 2; Destroy 4; What 3] =
  OK (s, [HDone; HThrown; HDone; HDone; HDone; HThrown; HDone; HText [5]; HDone; HText [6; 6]]%Z).
Proof. eexists. vm_compute. reflexivity. Qed.
Example C82_plots_hypotheses : exists rs v, vruns (such_that hvstep no_overwrite) [] [OpenPlot 3 false None; Call 0 true true (Some [7]%Z); MoveNew 0; Destroy 0; Destroy 2; Destroy 1] rs v /\ Forall (fun o => o = None) v.
Proof.
  eexists _, _. split.
  - vgo2 H_open_plot. vgo2 H_read_plot_fails. vgo2 H_move_new. vgo2 H_destroy. vgo2 H_destroy. vgo2 H_destroy. apply VR_done.
  - cbn. repeat constructor.
Qed.
