(** * C90: the memory of element states (C functions) *)
From Verif Require Import CBase CBaseFacts BinModel D3BufModel D3BufSpec D3BufProofs D3Model D3Spec D3CurProofs D3OpenProofs D3SectProofs D3StateProofs D3Sample D3Rich D3ReadModel D3ReadSpec D3ReadProofs D3ElemModel D3ElemSpec D3ElemProofs D3LayerProofs D3ShellProofs D3ShellReadProofs D3BeamProofs PropD3Elem CppArrayModel OwnModel OwnProofs ElemMemModel ElemMemSpec ElemMemProofs.
Open Scope Z_scope.

Lemma empty_room c num hs blk : 0 <= num -> length hs = Z.to_nat (nhv c * nip c * num) \/ length hs = Z.to_nat (num * 3 * nhv c) -> In (Some blk) (rest_of c num hs) -> blk = [].
Proof.
  intros Hn L I. unfold rest_of in I. destruct I as [I|I].
  - destruct (Z.eqb_spec (nhv c) 0) as [Z0|]; [|discriminate]. injection I as <-. rewrite Z0 in L. destruct hs; [reflexivity|]. cbn [length] in L. lia.
  - apply in_app_or in I as [I|I]; [|destruct I as [I|[I|[]]]; discriminate]. destruct (nip c <? 3); [destruct I|]. destruct I as [I|[]]. destruct (Z.eqb_spec (nip c) 3) as [Z0|]; [|discriminate]. injection I as <-. rewrite Z0. reflexivity.
Qed.
Lemma only_empty (h l : heap) : (forall blk, In (Some blk) l -> blk = []) -> forall k blk, (length h <= k)%nat -> nth_error (h ++ l) k = Some (Some blk) -> blk = [].
Proof. intros E k blk L Q. rewrite nth_error_app2 in Q by exact L. apply nth_error_In in Q. apply E. exact Q. Qed.
Lemma kept (h l : heap) : forall k, (k < length h)%nat -> nth_error (h ++ l) k = nth_error h k.
Proof. intros k L. apply nth_error_app1. exact L. Qed.

Section Opened.
Context (b : dbuf) (titles : Z) (states : list Z) (pl : plot) (O : opened b titles states pl).
Let V := opened_view _ _ _ _ O. Let Su := v_su _ _ _ _ V.
Lemma shape_opened : shape_of pl = the_shape b (ips_of b).
Proof. exact (shape_ok b titles states pl V). Qed.
Lemma cd_opened f : control_value b f = cval b f -> pl_cd pl f = cval b f.
Proof. intros <-. apply (v_cd _ _ _ _ V). Qed.
Lemma nel4_nn : 0 <= pl_cd pl NEL4.
Proof. rewrite cd_opened by reflexivity. apply (nonneg b Su); discriminate. Qed.
Lemma nelt_nn : 0 <= pl_cd pl NELT.
Proof. rewrite cd_opened by reflexivity. apply (nonneg b Su); discriminate. Qed.
Lemma nel2_nn : 0 <= pl_cd pl NEL2.
Proof. rewrite cd_opened by reflexivity. apply (nonneg b Su); discriminate. Qed.
End Opened.

(** The readers with their memory return what the readers of C46, C58 and C59
    return. *)
Theorem C90_same_results : forall h b titles states pl s, opened b titles states pl ->
  (do ' (_, pl', e) <- read_shells_mem h pl s; OK (pl', option_map (fun e => (el_structs e, el_hists e, el_adds e)) e)) = read_shells_state pl s /\
  (do ' (_, pl', e) <- read_thick_shells_mem h pl s; OK (pl', option_map (fun e => (el_structs e, el_hists e, el_adds e)) e)) = read_thick_shells_state pl s /\
  (do ' (_, pl', e) <- read_beams_mem h pl s; OK (pl', option_map (fun e => (bm_structs e, bm_ips e, bm_hists e)) e)) = read_beams_state pl s.
Proof.
  intros h b titles states pl s O. split; [|split].
  - pose proof (shells_mem h pl s (nel4_nn _ _ _ _ O)) as M. destruct (read_shells_state pl s) as [[pl' [[[l hs] ads]|]]| |].
    + destruct M as (h' & e & -> & <- & <- & <- & _). reflexivity.
    + destruct M as (h' & -> & _). reflexivity.
    + rewrite M. reflexivity.
    + rewrite M. reflexivity.
  - pose proof (thick_mem h pl s (nelt_nn _ _ _ _ O)) as M. destruct (read_thick_shells_state pl s) as [[pl' [[[l hs] ads]|]]| |].
    + destruct M as (h' & e & -> & <- & <- & <- & _). reflexivity.
    + destruct M as (h' & -> & _). reflexivity.
    + rewrite M. reflexivity.
    + rewrite M. reflexivity.
  - pose proof (beams_mem_ok h pl s (nel2_nn _ _ _ _ O)) as M. destruct (read_beams_state pl s) as [[pl' [[[l hs] ads]|]]| |].
    + destruct M as (h' & e & -> & <- & <- & <- & _). reflexivity.
    + destruct M as (h' & -> & _). reflexivity.
    + rewrite M. reflexivity.
    + rewrite M. reflexivity.
Qed.

(** ** Shells and thick shells *)
Lemma shells_result h b titles states pl s h1 pl' e : opened b titles states pl -> read_shells_mem h pl s = OK (h1, pl', Some e) ->
  0 < cval b NEL4 /\ placed (the_shape b (ips_of b)) (cval b NEL4) h h1 e /\ (exists x, nth_error (el_structs e) 0 = Some x /\ first_ok (the_shape b (ips_of b)) (sh_layers x)) /\ length (el_hists e) = Z.to_nat (nhv (the_shape b (ips_of b)) * nip (the_shape b (ips_of b)) * cval b NEL4).
Proof.
  intros O E. pose proof (shells_mem h pl s (nel4_nn _ _ _ _ O)) as M. destruct (read_shells_state pl s) as [[pl2 [[[l hs] ads]|]]| |].
  - destruct M as (h' & e' & Q & <- & <- & <- & P). rewrite Q in E. injection E as <- <- <-. rewrite (shape_opened _ _ _ _ O), (cd_opened _ _ _ _ O NEL4 eq_refl) in P. exact P.
  - destruct M as (h' & Q & _). rewrite Q in E. discriminate.
  - rewrite M in E. discriminate.
  - rewrite M in E. discriminate.
Qed.
Lemma thick_result h b titles states pl s h1 pl' e : opened b titles states pl -> read_thick_shells_mem h pl s = OK (h1, pl', Some e) ->
  0 < cval b NELT /\ placed (the_shape b (ips_of b)) (cval b NELT) h h1 e /\ (exists x, nth_error (el_structs e) 0 = Some x /\ first_ok (the_shape b (ips_of b)) (ts_layers x)) /\ length (el_hists e) = Z.to_nat (cval b NELT * 3 * nhv (the_shape b (ips_of b))).
Proof.
  intros O E. pose proof (thick_mem h pl s (nelt_nn _ _ _ _ O)) as M. destruct (read_thick_shells_state pl s) as [[pl2 [[[l hs] ads]|]]| |].
  - destruct M as (h' & e' & Q & <- & <- & <- & P). rewrite Q in E. injection E as <- <- <-. rewrite (shape_opened _ _ _ _ O), (cd_opened _ _ _ _ O NELT eq_refl) in P. exact P.
  - destruct M as (h' & Q & _). rewrite Q in E. discriminate.
  - rewrite M in E. discriminate.
  - rewrite M in E. discriminate.
Qed.

(** What was read can be freed, and at most empty blocks (malloc(0)) are left. *)
Theorem C90_shells_partial : forall h b titles states pl s h1 pl' e, opened b titles states pl -> read_shells_mem h pl s = OK (h1, pl', Some e) -> 0 < ips_of b ->
  exists h2, free_shells_state h1 (Some e) = OK h2 /\ (forall k, (k < length h)%nat -> nth_error h2 k = nth_error h k) /\ (forall k blk, (length h <= k)%nat -> nth_error h2 k = Some (Some blk) -> blk = []).
Proof.
  intros h b titles states pl s h1 pl' e O E P. destruct (shells_result _ _ _ _ _ _ _ _ _ O E) as (Hn & Pl & (x & Hx & Fx) & Lh). eexists. split; [exact (free_placed sh_layers _ _ _ _ _ _ Pl Hn Hx Fx P)|].
  split; [apply kept|]. apply only_empty. intros blk. apply empty_room; [lia|left; exact Lh].
Qed.
Theorem C90_thick_shells_partial : forall h b titles states pl s h1 pl' e, opened b titles states pl -> read_thick_shells_mem h pl s = OK (h1, pl', Some e) -> 0 < ips_of b ->
  exists h2, free_thick_shells_state h1 (Some e) = OK h2 /\ (forall k, (k < length h)%nat -> nth_error h2 k = nth_error h k) /\ (forall k blk, (length h <= k)%nat -> nth_error h2 k = Some (Some blk) -> blk = []).
Proof.
  intros h b titles states pl s h1 pl' e O E P. destruct (thick_result _ _ _ _ _ _ _ _ _ O E) as (Hn & Pl & (x & Hx & Fx) & Lh). eexists. split; [exact (free_placed ts_layers _ _ _ _ _ _ Pl Hn Hx Fx P)|].
  split; [apply kept|]. apply only_empty. intros blk. apply empty_room; [lia|right; exact Lh].
Qed.
(** Nothing at all is left with history variables and a number of integration
    points other than 3. *)
Theorem C90_all_given_back : forall h b titles states pl s h1 pl', opened b titles states pl -> 0 < cval b NEIPS -> 0 < ips_of b -> ips_of b <> 3 ->
  (forall e, read_shells_mem h pl s = OK (h1, pl', Some e) -> exists h2, free_shells_state h1 (Some e) = OK h2 /\ given_back h h2) /\
  (forall e, read_thick_shells_mem h pl s = OK (h1, pl', Some e) -> exists h2, free_thick_shells_state h1 (Some e) = OK h2 /\ given_back h h2).
Proof.
  intros h b titles states pl s h1 pl' O Hh P P3. split; intros e E.
  - destruct (shells_result _ _ _ _ _ _ _ _ _ O E) as (Hn & Pl & (x & Hx & Fx) & Lh). eexists. split; [exact (free_placed sh_layers _ _ _ _ _ _ Pl Hn Hx Fx P)|]. apply given_back_app, rest_freed; assumption.
  - destruct (thick_result _ _ _ _ _ _ _ _ _ O E) as (Hn & Pl & (x & Hx & Fx) & Lh). eexists. split; [exact (free_placed ts_layers _ _ _ _ _ _ Pl Hn Hx Fx P)|]. apply given_back_app, rest_freed; assumption.
Qed.
(** Otherwise an empty block is lost. *)
Theorem C90_empty_blocks_refuted : forall h b titles states pl s h1 pl', opened b titles states pl -> 0 < ips_of b -> cval b NEIPS = 0 \/ ips_of b = 3 ->
  (forall e, read_shells_mem h pl s = OK (h1, pl', Some e) -> exists h2, free_shells_state h1 (Some e) = OK h2 /\ lost 0 h h2) /\
  (forall e, read_thick_shells_mem h pl s = OK (h1, pl', Some e) -> exists h2, free_thick_shells_state h1 (Some e) = OK h2 /\ lost 0 h h2).
Proof.
  intros h b titles states pl s h1 pl' O P C. split; intros e E.
  - destruct (shells_result _ _ _ _ _ _ _ _ _ O E) as (Hn & Pl & (x & Hx & Fx) & Lh). eexists. split; [exact (free_placed sh_layers _ _ _ _ _ _ Pl Hn Hx Fx P)|].
    destruct C as [C|C]; [|apply (lost_app _ _ []), rest_add; exact C]. assert (N0 : nhv (the_shape b (ips_of b)) = 0) by exact C. pose proof (rest_hist _ (cval b NEL4) (el_hists e) N0) as I. rewrite N0 in Lh. destruct (el_hists e); [|discriminate]. apply (lost_app _ _ []). exact I.
  - destruct (thick_result _ _ _ _ _ _ _ _ _ O E) as (Hn & Pl & (x & Hx & Fx) & Lh). eexists. split; [exact (free_placed ts_layers _ _ _ _ _ _ Pl Hn Hx Fx P)|].
    destruct C as [C|C]; [|apply (lost_app _ _ []), rest_add; exact C]. assert (N0 : nhv (the_shape b (ips_of b)) = 0) by exact C. pose proof (rest_hist _ (cval b NELT) (el_hists e) N0) as I. rewrite N0, Z.mul_0_r in Lh. destruct (el_hists e); [|discriminate]. apply (lost_app _ _ []). exact I.
Qed.
(** Without integration points an uninitialised pointer is freed. *)
Theorem C90_no_points_refuted : forall h b titles states pl s h1 pl', opened b titles states pl -> ips_of b = 0 ->
  (forall e, read_shells_mem h pl s = OK (h1, pl', Some e) -> free_shells_state h1 (Some e) = UB) /\
  (forall e, read_thick_shells_mem h pl s = OK (h1, pl', Some e) -> free_thick_shells_state h1 (Some e) = UB).
Proof.
  intros h b titles states pl s h1 pl' O P. assert (P' : nip (the_shape b (ips_of b)) <= 0) by (cbn [nip the_shape]; lia). split; intros e E.
  - destruct (shells_result _ _ _ _ _ _ _ _ _ O E) as (Hn & Pl & (x & Hx & Fx) & Lh). exact (free_unset sh_layers _ _ _ _ _ _ Pl Hn Hx Fx P').
  - destruct (thick_result _ _ _ _ _ _ _ _ _ O E) as (Hn & Pl & (x & Hx & Fx) & Lh). exact (free_unset ts_layers _ _ _ _ _ _ Pl Hn Hx Fx P').
Qed.

(** ** Reads that fail, for every plot *)
(** They give back what they allocated, except if the words of shells cannot be
    read from a file of word size 4. *)
Theorem C90_failed_partial : forall h pl s h1 pl',
  (0 <= pl_cd pl NEL4 -> read_shells_mem h pl s = OK (h1, pl', None) -> pl_err pl' <> Some P_words \/ d_ws (pl_buf pl') <> 4 -> given_back h h1) /\
  (0 <= pl_cd pl NELT -> read_thick_shells_mem h pl s = OK (h1, pl', None) -> given_back h h1).
Proof.
  intros h pl s h1 pl'. split.
  - intros N E C. pose proof (shells_mem h pl s N) as M. destruct (read_shells_state pl s) as [[pl2 [[[l hs] ads]|]]| |].
    + destruct M as (h' & e & Q & _). rewrite Q in E. discriminate.
    + destruct M as (h' & Q & [(G & _)|(G1 & G2 & _)]); rewrite Q in E; injection E as <- <-; [exact G|destruct C; contradiction].
    + rewrite M in E. discriminate.
    + rewrite M in E. discriminate.
  - intros N E. pose proof (thick_mem h pl s N) as M. destruct (read_thick_shells_state pl s) as [[pl2 [[[l hs] ads]|]]| |].
    + destruct M as (h' & e & Q & _). rewrite Q in E. discriminate.
    + destruct M as (h' & Q & G). rewrite Q in E. injection E as <- <-. exact G.
    + rewrite M in E. discriminate.
    + rewrite M in E. discriminate.
Qed.
Theorem C90_failed_shells_refuted : forall h pl s h1 pl', 0 <= pl_cd pl NEL4 -> read_shells_mem h pl s = OK (h1, pl', None) -> pl_err pl' = Some P_words -> d_ws (pl_buf pl') = 4 ->
  lost (u8 (pl_cd pl NEIPS) * u8 (pl_cd pl MAXINT) * pl_cd pl NEL4) h h1.
Proof.
  intros h pl s h1 pl' N E Ew W. pose proof (shells_mem h pl s N) as M. destruct (read_shells_state pl s) as [[pl2 [[[l hs] ads]|]]| |].
  - destruct M as (h' & e & Q & _). rewrite Q in E. discriminate.
  - destruct M as (h' & Q & [(G & G1)|(G1 & G2 & G)]); rewrite Q in E; injection E as <- <-; [destruct (G1 Ew W)|].
    rewrite Z2Nat.id in G; [exact G|]. apply Z.mul_nonneg_nonneg; [|exact N]. apply Z.mul_nonneg_nonneg; apply Z.mod_pos_bound; lia.
  - rewrite M in E. discriminate.
  - rewrite M in E. discriminate.
Qed.
(** A read of beams that fails once memory is allocated gives back neither the
    integration points nor the history variables. *)
Theorem C90_failed_beams_refuted : forall h pl s h1 pl', 0 <= pl_cd pl NEL2 -> read_beams_mem h pl s = OK (h1, pl', None) -> pl_err pl' = Some P_sanity \/ pl_err pl' = Some P_words ->
  lost (pl_cd pl NEL2 * u8 (pl_cd pl BEAMIP)) h h1 /\ lost (pl_cd pl NEL2 * u8 (pl_cd pl NEIPB) * (3 + u8 (pl_cd pl BEAMIP))) h h1.
Proof.
  intros h pl s h1 pl' N E Ew. pose proof (beams_mem_ok h pl s N) as M. destruct (read_beams_state pl s) as [[pl2 [[[l hs] ads]|]]| |].
  - destruct M as (h' & e & Q & _). rewrite Q in E. discriminate.
  - destruct M as (h' & Q & G & G1). rewrite Q in E. injection E as <- <-. destruct G as [G|(_ & A & B)]; [destruct (G1 Ew G)|].
    assert (0 <= u8 (pl_cd pl BEAMIP)) by (apply Z.mod_pos_bound; lia). assert (0 <= u8 (pl_cd pl NEIPB)) by (apply Z.mod_pos_bound; lia).
    rewrite Z2Nat.id in A by (apply Z.mul_nonneg_nonneg; lia). rewrite Z2Nat.id in B by (apply Z.mul_nonneg_nonneg; [apply Z.mul_nonneg_nonneg|]; lia). split; assumption.
  - rewrite M in E. discriminate.
  - rewrite M in E. discriminate.
Qed.

(** ** Beams *)
Lemma beams_result h b titles states pl s h1 pl' e nip : opened b titles states pl -> read_beams_mem h pl s = OK (h1, pl', Some e) -> 0 <= nip -> cval b NV1D = 6 + 3 * cval b NEIPB + nip * (5 + cval b NEIPB) ->
  0 < cval b NEL2 /\ beams_placed nip (u8 (pl_cd pl NEIPB)) (cval b NEL2) h h1 e /\
  exists x, nth_error (bm_structs e) 0 = Some x /\ be_ips x = 0 /\ (0 < nip -> exists p, nth_error (bm_ips e) 0 = Some (Some p) /\ ip_hist p = 0).
Proof.
  intros O E P W. pose proof (opened_view _ _ _ _ O) as V. pose proof (v_su _ _ _ _ V) as Su. pose proof (nonneg b Su NEIPB ltac:(discriminate) ltac:(discriminate)) as Nb. pose proof (cval_unsigned b Su NV1D ltac:(discriminate) ltac:(discriminate)) as Wb.
  assert (Bi : pl_cd pl BEAMIP = nip).
  { rewrite (v_cd _ _ _ _ V). cbn [control_value]. unfold u64. rewrite Z.mod_small by nia. replace (cval b NV1D - 6 - 3 * cval b NEIPB) with (nip * (5 + cval b NEIPB)) by lia. apply Z.div_mul. lia. }
  pose proof (beams_mem_ok h pl s (nel2_nn _ _ _ _ O)) as M. destruct (read_beams_state pl s) as [[pl2 [[[l hs] ads]|]]| |].
  - destruct M as (h' & e' & Q & <- & <- & <- & Hn & Pl & Small & F). rewrite Q in E. injection E as <- <- <-. rewrite Bi in *. rewrite (cd_opened _ _ _ _ O NEL2 eq_refl) in *.
    replace (u8 nip) with nip in * by (symmetry; apply Z.mod_small; lia). auto.
  - destruct M as (h' & Q & _). rewrite Q in E. discriminate.
  - rewrite M in E. discriminate.
  - rewrite M in E. discriminate.
Qed.
Theorem C90_beams_partial : forall h b titles states pl s h1 pl' e nip, opened b titles states pl -> read_beams_mem h pl s = OK (h1, pl', Some e) ->
  0 < nip -> cval b NV1D = 6 + 3 * cval b NEIPB + nip * (5 + cval b NEIPB) -> exists h2, free_beams_state h1 (Some e) = OK h2 /\ given_back h h2.
Proof.
  intros h b titles states pl s h1 pl' e nip O E P W. destruct (beams_result _ _ _ _ _ _ _ _ _ nip O E ltac:(lia) W) as (Hn & Pl & x & Hx & Ex & F). destruct (F P) as (p & Hp & Ep).
  eexists. split; [exact (free_beams_placed _ _ _ _ _ _ _ _ Pl Hn P Hx Ex Hp Ep)|]. apply given_back_app. repeat constructor.
Qed.
(** Beams without integration points: the pointer to the history variables is read
    from an empty array, and what is found there is freed. *)
Theorem C90_beams_without_points_refuted : forall h b titles states pl s h1 pl' e, opened b titles states pl -> read_beams_mem h pl s = OK (h1, pl', Some e) ->
  cval b NV1D = 6 + 3 * cval b NEIPB -> free_beams_state h1 (Some e) = UB.
Proof.
  intros h b titles states pl s h1 pl' e O E W. destruct (beams_result _ _ _ _ _ _ _ _ _ 0 O E ltac:(lia) ltac:(lia)) as (Hn & Pl & x & Hx & Ex & _).
  exact (free_beams_none _ _ _ _ _ _ Pl Hn Hx Ex).
Qed.
(** Nothing to free. *)
Theorem C90_null : forall h, free_shells_state h None = OK h /\ free_thick_shells_state h None = OK h /\ free_beams_state h None = OK h.
Proof. intros h. repeat split. Qed.

(** ** Non-vacuity *)
(** Four integration points and history variables: all memory is given back. *)
Example C90_case : exists pl h1 pl' e, opened rich4 148 [189; 374] pl /\ read_shells_mem [] pl 0 = OK (h1, pl', Some e) /\ length h1 = 4%nat /\ 0 < cval rich4 NEIPS /\ ips_of rich4 = 4.
Proof.
  destruct rich4_opened as (pl & O). exists pl. pose proof (C46_shells rich4 148 [189; 374] pl 0 189 1 O eq_refl) as G.
  destruct G as (l & hs & ads & (pl' & Q & _) & _); [vm_compute; reflexivity|vm_compute; reflexivity|right; reflexivity|vm_compute; discriminate|vm_compute; reflexivity|].
  pose proof (shells_mem [] pl 0 (nel4_nn _ _ _ _ O)) as M. rewrite Q in M. destruct M as (h' & e & E & _ & _ & _ & _ & (_ & P) & _). exists h', pl', e. split; [exact O|]. split; [exact E|].
  rewrite (shape_opened _ _ _ _ O) in P. change (nip (the_shape rich4 (ips_of rich4)) <? 3) with (ips_of rich4 <? 3) in P. replace (ips_of rich4 <? 3) with false in P by (vm_compute; reflexivity). destruct P as (-> & _). repeat split; vm_compute; reflexivity.
Qed.
(** Three integration points: an empty block is lost, for shells and thick shells. *)
Example C90_empty_case : exists pl h1 h2 pl1 pl2 e1 e2, opened rich3 148 [189; 358] pl /\ read_shells_mem [] pl 0 = OK (h1, pl1, Some e1) /\ read_thick_shells_mem [] pl 0 = OK (h2, pl2, Some e2) /\ ips_of rich3 = 3.
Proof.
  destruct rich3_opened as (pl & O). exists pl.
  destruct (C46_shells rich3 148 [189; 358] pl 0 189 1 O eq_refl) as (l & hs & ads & (pl' & Q & _) & _); [vm_compute; reflexivity|vm_compute; reflexivity|right; reflexivity|vm_compute; discriminate|vm_compute; reflexivity|].
  destruct (C58_thick_shells rich3 148 [189; 358] pl 0 189 1 O eq_refl) as (l2 & hs2 & ads2 & (pl2 & Q2 & _) & _); [vm_compute; reflexivity|vm_compute; reflexivity|left; vm_compute; reflexivity|vm_compute; reflexivity|].
  pose proof (shells_mem [] pl 0 (nel4_nn _ _ _ _ O)) as M. rewrite Q in M. destruct M as (h1 & e1 & E1 & _). pose proof (thick_mem [] pl 0 (nelt_nn _ _ _ _ O)) as M2. rewrite Q2 in M2. destruct M2 as (h2 & e2 & E2 & _).
  exists h1, h2, pl', pl2, e1, e2. split; [exact O|]. split; [exact E1|]. split; [exact E2|]. vm_compute. reflexivity.
Qed.
(** Beams with two and without integration points. *)
Definition bare_beams : dbuf := rich [(30, 9)] 157.
Example C90_beams_case : (exists pl h1 pl' e, opened rich3 148 [189; 358] pl /\ read_beams_mem [] pl 0 = OK (h1, pl', Some e) /\ cval rich3 NV1D = 6 + 3 * cval rich3 NEIPB + 2 * (5 + cval rich3 NEIPB)) /\
  (exists pl h1 pl' e, opened bare_beams 148 [189; 346] pl /\ read_beams_mem [] pl 0 = OK (h1, pl', Some e) /\ cval bare_beams NV1D = 6 + 3 * cval bare_beams NEIPB).
Proof.
  split.
  - destruct rich3_opened as (pl & O). exists pl. destruct (C59_beams rich3 148 [189; 358] pl 0 189 2 O eq_refl) as (l & hs & ads & (pl' & Q & _) & _); [vm_compute; reflexivity|lia|vm_compute; discriminate|vm_compute; reflexivity|].
    pose proof (beams_mem_ok [] pl 0 (nel2_nn _ _ _ _ O)) as M. rewrite Q in M. destruct M as (h1 & e1 & E1 & _). exists h1, pl', e1. split; [exact O|]. split; [exact E1|]. vm_compute. reflexivity.
  - assert (X : exists pl, opened bare_beams 148 [189; 346] pl) by (change [189; 346] with [189; 189 + 157]; prove_opened bare_beams 157).
    destruct X as (pl & O). exists pl. destruct (C59_beams bare_beams 148 [189; 346] pl 0 189 0 O eq_refl) as (l & hs & ads & (pl' & Q & _) & _); [vm_compute; reflexivity|lia|vm_compute; discriminate|vm_compute; reflexivity|].
    pose proof (beams_mem_ok [] pl 0 (nel2_nn _ _ _ _ O)) as M. rewrite Q in M. destruct M as (h1 & e1 & E1 & _). exists h1, pl', e1. split; [exact O|]. split; [exact E1|]. vm_compute. reflexivity.
Qed.
(** A file that has been truncated since it was opened; a plot whose beams do not
    fit. *)
Definition cut_file (f : dfile) : dfile := {| f_bytes := firstn 200 (f_bytes f); f_size := f_size f; f_ok := f_ok f |}.
Definition truncated : dbuf := {| d_files := map cut_file (d_files rich4); d_ws := 4; d_err := None |}.
Example C90_failed_case : exists pl pl' h1, open_buffer rich4 = OK pl /\ read_shells_mem [] (with_buf pl truncated) 0 = OK (h1, pl', None) /\ pl_err pl' = Some P_words /\ d_ws (pl_buf pl') = 4 /\ u8 (pl_cd pl NEIPS) * u8 (pl_cd pl MAXINT) * pl_cd pl NEL4 = 4.
Proof. eexists _, _, _. split; [vm_compute; reflexivity|]. split; [vm_compute; reflexivity|]. repeat split; vm_compute; reflexivity. Qed.
Example C90_failed_beams_case : exists pl pl' h1, opened odd_beams 148 [189; 359] pl /\ read_beams_mem [] pl 0 = OK (h1, pl', None) /\ pl_err pl' = Some P_sanity.
Proof.
  assert (X : exists pl, opened odd_beams 148 [189; 359] pl) by (change [189; 359] with [189; 189 + 170]; prove_opened odd_beams 170).
  destruct X as (pl & O). exists pl. pose proof (beams_small odd_beams 148 [189; 359] pl (opened_view _ _ _ _ O) 0 189 eq_refl) as S.
  assert (Q : read_beams_state pl 0 = OK (with_err pl (Some P_sanity), None)) by (apply S; vm_compute; (reflexivity || discriminate)).
  pose proof (beams_mem_ok [] pl 0 (nel2_nn _ _ _ _ O)) as M. rewrite Q in M. destruct M as (h1 & E1 & _). exists (with_err pl (Some P_sanity)), h1. split; [exact O|]. split; [exact E1|]. reflexivity.
Qed.

Print Assumptions C90_same_results.
Print Assumptions C90_shells_partial.
Print Assumptions C90_thick_shells_partial.
Print Assumptions C90_all_given_back.
Print Assumptions C90_empty_blocks_refuted.
Print Assumptions C90_no_points_refuted.
Print Assumptions C90_failed_partial.
Print Assumptions C90_failed_shells_refuted.
Print Assumptions C90_failed_beams_refuted.
Print Assumptions C90_beams_partial.
Print Assumptions C90_beams_without_points_refuted.
Print Assumptions C90_null.
