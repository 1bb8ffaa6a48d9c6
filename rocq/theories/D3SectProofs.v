(** * The sections behind the control data *)
From Verif Require Import CBase CBaseFacts BinModel D3BufModel D3BufSpec D3BufProofs D3Model D3Spec D3CurProofs D3OpenProofs.
Open Scope Z_scope.

(** Nothing but the data pointers has changed. *)
Definition same (pl pl' : plot) : Prop :=
  pl_buf pl' = pl_buf pl /\ pl_istrn pl' = pl_istrn pl /\ pl_states pl' = pl_states pl /\ pl_err pl' = pl_err pl /\ pl_initial pl' = pl_initial pl.
Lemma same_trans a x c : same a x -> same x c -> same a c.
Proof. unfold same. intuition congruence. Qed.

Section Sections.
Context (b : dbuf) (Su : supported b).
Let So := su_sound b Su.
Let Al := su_aligned b Su.
Let Er := su_err b Su.
Let By := su_bytes b Su.
Notation live := (live b).
Notation reach := (reach b).
Notation dead := (dead b).
Ltac nn f := pose proof (nonneg b Su f ltac:(discriminate) ltac:(discriminate)).

Lemma skip_to c pos n q : live c pos -> 0 <= n -> q = pos + n -> q <= marker_pos b -> exists c', skip c n = OK c' /\ live c' q.
Proof.
  intros L N -> M. assert (B : below b (pos + n)) by (eapply has_below; eauto; apply has_marker; exact Su).
  destruct (skip_live b So c pos n L N) as (c' & Q & R); [apply below_bound in B; auto; lia|]. exists c'. split; [exact Q|]. apply (reach_live b); auto.
Qed.
Lemma word_to c pos : live c pos -> pos <= marker_pos b -> exists c', word c = OK (c', wd b pos) /\ live c' (pos + 1).
Proof.
  intros L M. destruct (word_live b So Al Er c pos L) as (c' & Q & L' & _); [|eauto]. eapply has_le; eauto; [apply has_marker; exact Su|]. destruct L as (_ & _ & _ & P). lia.
Qed.

Definition geometry_ptr (k : dkind) (old : Z) : Z :=
  match k with
  | K_NODE_COORDS => control_end b
  | K_EL8_CONNECT => g_el8 b
  | K_ELT_CONNECT => if 0 <? cval b NELT then g_elt b else old
  | K_EL2_CONNECT => if 0 <? cval b NEL2 then g_el2 b else old
  | K_EL4_CONNECT => if 0 <? cval b NEL4 then g_el4 b else old
  | _ => old
  end.

Lemma geometry_live c pl : live c (control_end b) -> (forall f, f <> NUMRBS -> pl_cd pl f = control_value b f) ->
  exists c' pl', geometry c pl = OK (c', pl', 1) /\ live c' (geometry_end b) /\ same pl pl' /\ pl_cd pl' = pl_cd pl /\ forall k, pl_ptr pl' k = geometry_ptr k (pl_ptr pl k).
Proof.
  intros L C. pose proof (order b Su) as (O1 & O2 & O3 & O4 & O5). unfold geometry. cbv zeta. rewrite !C by discriminate. cbn [control_value Z.eqb negb].
  assert (W : cw c = control_end b) by apply L. rewrite W. pose proof (su_nel8 b Su) as N8. nn NELT. nn NEL2. nn NEL4. nn NUMNP.
  assert (E8 : g_el8 b = control_end b + 3 * cval b NUMNP) by reflexivity. assert (Et : g_elt b = g_el8 b + 9 * cval b NEL8) by reflexivity. assert (E2 : g_el2 b = g_elt b + 9 * cval b NELT) by reflexivity.
  assert (E4 : g_el4 b = g_el2 b + 6 * cval b NEL2) by reflexivity. assert (Ee : geometry_end b = g_el4 b + 5 * cval b NEL4) by reflexivity.
  replace (control_end b + cval b NUMNP * 3) with (g_el8 b) by lia. rewrite (small b Su (g_el8 b)) by lia.
  replace (if 0 <? cval b NEL8 then (cval b NEL8, g_el8 b) else (- cval b NEL8, u64 (g_el8 b + 2 * - cval b NEL8))) with (cval b NEL8, g_el8 b)
    by (destruct (Z.ltb_spec 0 (cval b NEL8)); [reflexivity|]; replace (cval b NEL8) with 0 by lia; rewrite Z.add_0_r, (small b Su) by lia; reflexivity).
  replace (g_el8 b + 9 * cval b NEL8) with (g_elt b) by lia. rewrite (small b Su (g_elt b)) by lia.
  set (pl1 := with_ptr (with_ptr pl K_NODE_COORDS (control_end b)) K_EL8_CONNECT (g_el8 b)).
  replace (if 0 <? cval b NELT then (with_ptr pl1 K_ELT_CONNECT (g_elt b), u64 (g_elt b + 9 * cval b NELT)) else (pl1, g_elt b))
    with ((if 0 <? cval b NELT then with_ptr pl1 K_ELT_CONNECT (g_elt b) else pl1), g_el2 b)
    by (destruct (Z.ltb_spec 0 (cval b NELT)); f_equal; [rewrite (small b Su); lia|lia]).
  set (pl2 := if 0 <? cval b NELT then _ else _).
  replace (if 0 <? cval b NEL2 then (with_ptr pl2 K_EL2_CONNECT (g_el2 b), u64 (g_el2 b + 6 * cval b NEL2)) else (pl2, g_el2 b))
    with ((if 0 <? cval b NEL2 then with_ptr pl2 K_EL2_CONNECT (g_el2 b) else pl2), g_el4 b)
    by (destruct (Z.ltb_spec 0 (cval b NEL2)); f_equal; [rewrite (small b Su); lia|lia]).
  set (pl3 := if 0 <? cval b NEL2 then _ else _).
  replace (if 0 <? cval b NEL4 then (with_ptr pl3 K_EL4_CONNECT (g_el4 b), u64 (g_el4 b + 5 * cval b NEL4)) else (pl3, g_el4 b))
    with ((if 0 <? cval b NEL4 then with_ptr pl3 K_EL4_CONNECT (g_el4 b) else pl3), geometry_end b)
    by (destruct (Z.ltb_spec 0 (cval b NEL4)); f_equal; [rewrite (small b Su); lia|lia]).
  rewrite (small b Su (geometry_end b - control_end b)) by lia.
  destruct (skip_to c (control_end b) (geometry_end b - control_end b) (geometry_end b) L) as (c' & Q & L'); [lia|lia|lia|]. rewrite Q. cbn [bind]. rewrite (live_err b Er c' _ L').
  eexists _, _. split; [reflexivity|]. split; [exact L'|]. unfold pl3, pl2, pl1, geometry_ptr. clear. 
  destruct (0 <? cval b NEL4), (0 <? cval b NEL2), (0 <? cval b NELT); (split; [repeat split|split; [reflexivity|intros k; destruct k; reflexivity]]).
Qed.

Definition ids_ptr (k : dkind) (old : Z) : Z :=
  if has_ids b then
    match k with
    | K_NODE_IDS => ids_start b | K_EL8_IDS => i_el8 b | K_EL2_IDS => i_el2 b | K_EL4_IDS => i_el4 b | K_ELT_IDS => i_elt b
    | K_PART_IDS => if part_ids_present b then i_parts b else old
    | _ => old
    end
  else old.
Lemma ids_live c pl : live c (geometry_end b) -> (forall f, f <> NUMRBS -> pl_cd pl f = control_value b f) ->
  exists c' pl', user_ids c pl = OK (c', pl', 1) /\ live c' (ids_end b) /\ same pl pl' /\ (forall f, pl_cd pl' f = control_value b f) /\ forall k, pl_ptr pl' k = ids_ptr k (pl_ptr pl k).
Proof.
  intros L C. pose proof (order b Su) as (O1 & O2 & O3 & O4 & O5). unfold user_ids, ids_ptr. cbv zeta. rewrite !(C NARBS) by discriminate. cbn [control_value].
  pose proof (su_ids b Su) as Ok. unfold ids_ok in Ok. destruct (has_ids b) eqn:Hi.
  2:{ unfold has_ids in Hi. destruct (Z.eqb_spec (cval b NARBS) 0) as [Z0|]; [|discriminate Hi]. eexists _, _. split; [reflexivity|].
      assert (ids_end b = geometry_end b) as -> by (unfold ids_end, has_ids; rewrite Z0; reflexivity). split; [exact L|].
      split; [repeat split|]. split; [|reflexivity]. intros f. cbn [with_cd pl_cd upd]. unfold upd. destruct f; cbn [field_beq]; try (apply C; discriminate). cbn [control_value]. unfold numrbs, has_ids. rewrite Z0. reflexivity. }
  assert (Na : (cval b NARBS =? 0) = false) by (unfold has_ids in Hi; destruct (cval b NARBS =? 0); [discriminate Hi|reflexivity]). rewrite Na.
  destruct (Ok eq_refl) as (K1 & K2 & K3 & K4 & K5 & K6). clear Ok.
  assert (W : cw c = geometry_end b) by apply L. rewrite W.
  pose proof (su_nel8 b Su) as N8. nn NELT. nn NEL2. nn NEL4. nn NUMNP. pose proof (ids_nmmat_nonneg b Su) as Nm.
  assert (Ie : ids_end b = i_parts b + 3 * ids_nmmat b) by (unfold ids_end; rewrite Hi; reflexivity).
  assert (I0 : ids_start b = geometry_end b + (if part_ids_present b then 16 else 10)) by reflexivity.
  assert (I1 : i_el8 b = ids_start b + cval b NUMNP) by reflexivity. assert (I2 : i_el2 b = i_el8 b + cval b NEL8) by reflexivity. assert (I3 : i_el4 b = i_el2 b + cval b NEL2) by reflexivity.
  assert (I4 : i_elt b = i_el4 b + cval b NEL4) by reflexivity. assert (I5 : i_parts b = i_elt b + cval b NELT) by reflexivity.
  assert (I6 : geometry_end b + 10 <= ids_start b) by (rewrite I0; destruct (part_ids_present b); lia).
  destruct (word_to c _ L) as (c1 & Q1 & L1); [lia|]. rewrite Q1. cbn [bind]. rewrite (live_ws b c1 _ L1), (live_err b Er c1 _ L1). fold (part_ids_present b).
  destruct (skip_to c1 _ 4 (geometry_end b + 5) L1) as (c2 & Q2 & L2); [lia|lia|lia|]. rewrite Q2. cbn [bind].
  destruct (word_to c2 _ L2) as (c3 & Q3 & L3); [lia|]. rewrite Q3. cbn [bind]. replace (geometry_end b + 5 + 1) with (geometry_end b + 6) in L3 by lia.
  destruct (word_to c3 _ L3) as (c4 & Q4 & L4); [lia|]. rewrite Q4. cbn [bind]. replace (geometry_end b + 6 + 1) with (geometry_end b + 7) in L4 by lia.
  destruct (word_to c4 _ L4) as (c5 & Q5 & L5); [lia|]. rewrite Q5. cbn [bind]. replace (geometry_end b + 7 + 1) with (geometry_end b + 8) in L5 by lia.
  destruct (word_to c5 _ L5) as (c6 & Q6 & L6); [lia|]. rewrite Q6. cbn [bind]. replace (geometry_end b + 8 + 1) with (geometry_end b + 9) in L6 by lia.
  destruct (word_to c6 _ L6) as (c7 & Q7 & L7); [lia|]. rewrite Q7. cbn [bind]. replace (geometry_end b + 9 + 1) with (geometry_end b + 10) in L7 by lia.
  rewrite (live_err b Er c7 _ L7). rewrite K1, K2, K3, K4, K5. rewrite !C by discriminate. cbn [control_value]. rewrite (small b Su (cval b NEL8)) by lia. rewrite !Z.eqb_refl. cbn [negb].
  match goal with |- context [bind ?x _] => assert (X : exists c8 cd8, x = OK (c8, cd8, ids_nmmat b, false) /\ live c8 (ids_start b) /\ forall f, cd8 f = control_value b f) end.
  { unfold ids_nmmat. assert (Sel : forall v, v = numrbs b -> forall f, upd (pl_cd pl) NUMRBS v f = control_value b f).
    { intros v E f. unfold upd. destruct f; cbn [field_beq]; try (apply C; discriminate). cbn [control_value]. exact E. }
    unfold numrbs in Sel. rewrite Hi in Sel. cbn [andb] in Sel. rewrite I0. destruct (part_ids_present b) eqn:Pp.
    - destruct (skip_to c7 _ 4 (geometry_end b + 14) L7) as (c8 & Q8 & L8); [lia|lia|lia|]. rewrite Q8. cbn [bind].
      destruct (word_to c8 _ L8) as (c9 & Q9 & L9); [lia|]. rewrite Q9. cbn [bind]. replace (geometry_end b + 14 + 1) with (geometry_end b + 15) in L9 by lia.
      destruct (word_to c9 _ L9) as (c10 & Q10 & L10); [lia|]. rewrite Q10. cbn [bind]. replace (geometry_end b + 15 + 1) with (geometry_end b + 16) in L10 by lia.
      rewrite (live_err b Er c10 _ L10). eexists _, _. split; [reflexivity|]. split; [exact L10|]. intros f. rewrite <- (Sel _ eq_refl f). unfold upd. destruct f; reflexivity.
    - eexists _, _. split; [unfold upd; cbn [field_beq]; rewrite (C NMMAT) by discriminate; reflexivity|]. split; [exact L7|]. exact (Sel _ eq_refl). }
  destruct X as (c8 & cd8 & -> & L8 & C8). cbn [bind]. assert (W8 : cw c8 = ids_start b) by apply L8. rewrite W8. cbn [with_cd pl_cd].
  rewrite (small b Su (ids_start b + cval b NUMNP)) by lia. rewrite <- I1. rewrite (small b Su (i_el8 b + cval b NEL8)) by lia. rewrite <- I2. rewrite (small b Su (i_el2 b + cval b NEL2)) by lia. rewrite <- I3.
  rewrite (small b Su (i_el4 b + cval b NEL4)) by lia. rewrite <- I4. rewrite (small b Su (i_elt b + cval b NELT)) by lia. rewrite <- I5. rewrite (small b Su (i_parts b + 3 * ids_nmmat b)) by lia. rewrite <- Ie.
  rewrite (small b Su (ids_end b - ids_start b)) by lia.
  destruct (skip_to c8 _ (ids_end b - ids_start b) (ids_end b) L8) as (c9 & Q9 & L9); [lia|lia|lia|]. rewrite Q9. cbn [bind]. rewrite (live_err b Er c9 _ L9).
  assert (W9 : cw c9 = ids_end b) by apply L9. rewrite W9, C8. cbn [control_value]. rewrite (small b Su (ids_end b - geometry_end b)) by lia. rewrite K6, Z.eqb_refl. cbn [negb].
  eexists _, _. split; [reflexivity|]. split; [exact L9|]. destruct (part_ids_present b); (split; [repeat split|split; [exact C8|intros k; destruct k; reflexivity]]).
Qed.

Lemma extra_connectivity_live c pl : live c (ids_end b) -> (forall f, pl_cd pl f = control_value b f) ->
  exists c', extra_connectivity c pl = OK (c', pl, 1) /\ live c' (ids_end b + extra_nodes b).
Proof.
  intros L C. pose proof (order b Su) as (O1 & O2 & O3 & O4 & O5). unfold extra_connectivity. cbv zeta. rewrite !C. cbn [control_value].
  match goal with |- context [u64 ?x] => assert (X : x = extra_nodes b) end.
  { unfold extra_nodes, if_pos. pose proof (su_nel8 b Su). nn NEL48. nn NEL20. nn NEL27. nn NEL21P. nn NEL15T. nn NEL20T. nn NEL40P. nn NEL64.
    assert (On : forall v k, 0 <= v -> (if 0 <? v then k * v else 0) = k * v) by (intros v k V; destruct (Z.ltb_spec 0 v); [reflexivity|]; replace v with 0 by lia; lia).
    rewrite !On by assumption. destruct (Z.ltb_spec (cval b NEL8) 0); [lia|]. destruct (0 <? cval b QUADR), (0 <? cval b CUBIC); rewrite ?andb_true_r, ?andb_false_r; rewrite ?On by assumption; lia. }
  rewrite X, (small b Su) by lia. destruct (skip_to c _ (extra_nodes b) (ids_end b + extra_nodes b) L) as (c' & Q & L'); [lia|lia|lia|]. rewrite Q. cbn [bind]. rewrite (live_err b Er c' _ L'). eauto.
Qed.
Lemma adapted_live c pl : live c (ids_end b + extra_nodes b) -> (forall f, pl_cd pl f = control_value b f) ->
  exists c', adapted_parents c pl = OK (c', pl, 1) /\ live c' (marker_pos b).
Proof.
  intros L C. pose proof (order b Su) as (O1 & O2 & O3 & O4 & O5). unfold adapted_parents. cbv zeta. rewrite !C. cbn [control_value]. nn NADAPT.
  assert (M : marker_pos b = ids_end b + extra_nodes b + 2 * cval b NADAPT) by reflexivity.
  destruct (Z.eqb_spec (cval b NADAPT) 0) as [Z0|Nz].
  - exists c. split; [reflexivity|]. rewrite M, Z0, Z.add_0_r. exact L.
  - rewrite (small b Su (2 * cval b NADAPT)) by lia.
    destruct (skip_to c _ (2 * cval b NADAPT) (marker_pos b) L) as (c' & Q & L'); [lia|lia|lia|]. rewrite Q. cbn [bind]. rewrite (live_err b Er c' _ L'). eauto.
Qed.
End Sections.
