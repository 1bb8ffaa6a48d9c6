(** * Opening a supported d3plot *)
From Verif Require Import CBase CBaseFacts BinModel D3BufModel D3BufSpec D3BufProofs D3Model D3Spec D3CurProofs.
Open Scope Z_scope.

Lemma nth_digit_loop_spec : forall fuel v i n, 0 <= v < 2 ^ 64 -> 0 <= i <= n -> (Z.to_nat (n - i) < fuel)%nat ->
  nth_digit_loop fuel v i n = OK (v / 10 ^ (n - i) mod 10).
Proof.
  induction fuel as [|fuel IH]; intros v i n V I F; [lia|]. cbn [nth_digit_loop]. destruct (Z.eqb_spec i n) as [->|Ne].
  - rewrite Z.sub_diag, Z.pow_0_r, Z.div_1_r. pose proof (Z.div_mod v 10). pose proof (Z.mod_pos_bound v 10).
    rewrite (u64_id (v / 10 * 10)) by lia. rewrite u64_id by lia. f_equal. lia.
  - rewrite IH; [|pose proof (Z.div_pos v 10); assert (v / 10 <= v) by (apply Z.div_le_upper_bound; lia); lia|lia|lia].
    rewrite Z.div_div by (try apply Z.pow_pos_nonneg; lia). rewrite <- Z.pow_succ_r by lia. replace (Z.succ (n - (i + 1))) with (n - i) by lia. reflexivity.
Qed.
Lemma nth_digit_spec v n : 0 <= v < 2 ^ 64 -> 0 <= n -> nth_digit v n = OK (digit_of v n).
Proof. intros V N. unfold nth_digit. rewrite nth_digit_loop_spec by lia. rewrite Z.sub_0_r. reflexivity. Qed.

Lemma mdl_spec raw : mdl raw = (mdlopt_of raw, maxint_of raw).
Proof. unfold mdl, mdlopt_of, maxint_of. destruct (Z.leb_spec 0 raw), (Z.ltb_spec raw (-10000)), (Z.ltb_spec raw 0); try lia; f_equal; lia. Qed.

Section Open.
Context (b : dbuf) (Su : supported b).
Let So := su_sound b Su.
Let Al := su_aligned b Su.
Let Er := su_err b Su.
Let By := su_bytes b Su.
Notation live := (live b).
Notation reach := (reach b).
Notation dead := (dead b).

Lemma has_le i m : has b m -> 0 <= i <= m -> has b i.
Proof. pose proof (ws_pos b So) as Ws. unfold has. intros (_ & H) I. split; [lia|]. nia. Qed.
Lemma has_below i m : has b m -> i <= m -> below b i.
Proof. pose proof (ws_pos b So) as Ws. unfold has, below. intros (_ & H) I. nia. Qed.
Lemma below_le i m : below b m -> i <= m -> below b i.
Proof. pose proof (ws_pos b So) as Ws. unfold below. intros H I. nia. Qed.
Lemma below_bound i : below b i -> i * d_ws b < 2 ^ 63.
Proof. pose proof (tot b So) as T. unfold below. lia. Qed.
Lemma cval_unsigned f : f <> NEL8 -> f <> MAXINT -> 0 <= cval b f < 2 ^ 64.
Proof.
  intros A B. unfold cval. destruct (control_pos f) as [i|]; [|destruct (extra_pos f) as [i|]].
  - destruct f; try congruence; apply (wd_u64 b So By).
  - destruct (0 <? wd b 57); [apply (wd_u64 b So By)|lia].
  - lia.
Qed.
Ltac uns := match goal with |- 0 <= cval b ?f < _ => apply (cval_unsigned f); discriminate | |- 0 <= cval b ?f => apply (cval_unsigned f); discriminate end.
Lemma nonneg f : f <> NEL8 -> f <> MAXINT -> 0 <= cval b f.
Proof. intros A B. apply (cval_unsigned f A B). Qed.
Ltac nn f := pose proof (nonneg f ltac:(discriminate) ltac:(discriminate)).

(** ** Control data *)
Fixpoint interp (pos : Z) (os : list op) (cd : cdata) : cdata :=
  match os with
  | [] => cd
  | R f :: r => interp (pos + 1) r (upd cd f (wd b pos))
  | RS f :: r => interp (pos + 1) r (upd cd f (signed (d_ws b) (wd b pos)))
  | SK n :: r => interp (pos + n) r cd
  end.
Fixpoint oplen (os : list op) : Z := match os with [] => 0 | SK n :: r => n + oplen r | _ :: r => 1 + oplen r end.
Lemma run_ops_live : forall os c cd pos m, live c pos -> Forall (fun o => match o with SK n => 0 <= n | _ => True end) os -> has b m -> pos + oplen os <= m ->
  exists c', run_ops c cd os = OK (c', interp pos os cd) /\ live c' (pos + oplen os).
Proof.
  pose proof (ws_pos b So) as Ws. induction os as [|o r IH]; intros c cd pos m L F H M; cbn [run_ops interp oplen] in *.
  - exists c. rewrite Z.add_0_r. auto.
  - inversion F as [|? ? F1 F2]; subst. assert (0 <= pos) by apply L. assert (0 <= oplen r). { clear - F2. induction F2 as [|o r F1 F2 IH]; cbn [oplen]; [lia|]. destruct o; lia. }
    destruct o as [f|f|n]; cbn [run_op].
    + destruct (word_live b So Al Er c pos L) as (c1 & Q & L1 & _); [eapply has_le; eauto; lia|]. rewrite Q. cbn [bind].
      destruct (IH c1 (upd cd f (wd b pos)) (pos + 1) m L1 F2 H) as (c2 & Q2 & L2); [lia|]. exists c2. rewrite Z.add_assoc. auto.
    + destruct (word_live b So Al Er c pos L) as (c1 & Q & L1 & _); [eapply has_le; eauto; lia|]. rewrite Q. cbn [bind]. rewrite (live_ws b c1 _ L1).
      destruct (IH c1 (upd cd f (signed (d_ws b) (wd b pos))) (pos + 1) m L1 F2 H) as (c2 & Q2 & L2); [lia|]. exists c2. rewrite Z.add_assoc. auto.
    + assert (Bl : below b (pos + n)) by (eapply has_below; eauto; lia).
      destruct (skip_live b So c pos n L F1) as (c1 & Q & L1); [apply below_bound in Bl; lia|]. rewrite Q. cbn [bind]. apply reach_live in L1; auto.
      destruct (IH c1 cd (pos + n) m L1 F2 H) as (c2 & Q2 & L2); [lia|]. exists c2. rewrite Z.add_assoc. auto.
Qed.

Lemma if_pos_nonneg g v : 0 <= v -> 0 <= if_pos g v.
Proof. unfold if_pos. destruct (0 <? g); lia. Qed.
Lemma extra_nodes_nonneg : 0 <= extra_nodes b.
Proof.
  unfold extra_nodes.
  nn NEL48. nn NEL20. nn NEL27. nn NEL21P. nn NEL15T. nn NEL20T. nn NEL40P. nn NEL64.
  assert (0 <= if_pos (cval b QUADR) (28 * cval b NEL27 + 22 * cval b NEL21P + 16 * cval b NEL15T)) by (apply if_pos_nonneg; lia).
  assert (0 <= if_pos (cval b CUBIC) (21 * cval b NEL20T + 41 * cval b NEL40P + 65 * cval b NEL64)) by (apply if_pos_nonneg; lia).
  lia.
Qed.
Lemma npart_nonneg : 0 <= npart b.
Proof. unfold npart. destruct (higher_order b); [apply (wd_u64 b So By)|lia]. Qed.
Lemma ids_nmmat_nonneg : 0 <= ids_nmmat b.
Proof. unfold ids_nmmat. destruct (part_ids_present b); [apply (wd_u64 b So By)|apply nonneg; discriminate]. Qed.
Lemma numrbs_nonneg : 0 <= numrbs b.
Proof. unfold numrbs. destruct (_ && _); [apply (wd_u64 b So By)|lia]. Qed.
(** All sections are before the end marker, in order. *)
Lemma order : 64 <= control_end b /\ control_end b <= g_el8 b <= g_elt b /\ g_elt b <= g_el2 b <= g_el4 b /\ g_el4 b <= geometry_end b <= ids_end b /\ ids_end b <= ids_end b + extra_nodes b <= marker_pos b.
Proof.
  nn NUMNP. nn NELT. nn NEL2.
  nn NEL4. nn NADAPT. nn EXTRA.
  pose proof (su_nel8 b Su). pose proof npart_nonneg. pose proof extra_nodes_nonneg. pose proof ids_nmmat_nonneg.
  assert (64 <= control_end b) by (unfold control_end; destruct (higher_order b); lia).
  assert (g_el8 b = control_end b + 3 * cval b NUMNP) by reflexivity. assert (g_elt b = g_el8 b + 9 * cval b NEL8) by reflexivity. assert (g_el2 b = g_elt b + 9 * cval b NELT) by reflexivity.
  assert (g_el4 b = g_el2 b + 6 * cval b NEL2) by reflexivity. assert (geometry_end b = g_el4 b + 5 * cval b NEL4) by reflexivity. assert (marker_pos b = ids_end b + extra_nodes b + 2 * cval b NADAPT) by reflexivity.
  assert (geometry_end b <= ids_end b). { unfold ids_end. destruct (has_ids b); [|lia]. unfold i_parts, i_elt, i_el4, i_el2, i_el8, ids_start. destruct (part_ids_present b); lia. }
  lia.
Qed.
Lemma has_marker : has b (marker_pos b).
Proof. apply (su_marker b Su). Qed.


Lemma repeat9_sum n : sum (repeat 9 n) = 9 * Z.of_nat n.
Proof. induction n; cbn [repeat sum]; lia. Qed.

Lemma no_extra_keep cd f : extra_pos f = None -> f <> NPART -> no_extra cd f = cd f.
Proof. destruct f; intros A B; try discriminate A; try (exfalso; apply B; reflexivity); reflexivity. Qed.
Lemma no_extra_zero cd f : extra_pos f <> None \/ f = NPART -> no_extra cd f = 0.
Proof. destruct f; intros [A|A]; try discriminate A; try (exfalso; apply A; reflexivity); reflexivity. Qed.
Lemma interp_control cd f i : control_pos f = Some i -> interp 12 control_ops cd f = cval b f.
Proof. destruct f; intros A; try discriminate A; reflexivity. Qed.
Lemma interp_extra cd f : interp 64 extra_ops cd f = match extra_pos f with Some i => wd b i | None => cd f end.
Proof. destruct f; reflexivity. Qed.
Lemma extra_not_control f : extra_pos f <> None -> control_pos f = None.
Proof. destruct f; intros A; try reflexivity; exfalso; apply A; reflexivity. Qed.
Lemma cval_extra f i : extra_pos f = Some i -> cval b f = if 0 <? cval b EXTRA then wd b i else 0.
Proof. intros A. unfold cval at 1. rewrite extra_not_control, A by congruence. reflexivity. Qed.

(** After reading the control data. *)
Lemma control_live c cd0 : live c 12 -> exists c' cd, read_control c cd0 = OK (c', cd) /\ live c' (control_end b) /\
  (forall f, control_pos f <> None \/ extra_pos f <> None -> cd f = cval b f) /\ cd NPART = npart b.
Proof.
  intros L. pose proof has_marker as Hm. pose proof order as (O1 & O2 & O3 & O4 & O5). unfold read_control.
  assert (M64 : 64 <= marker_pos b) by lia.
  destruct (run_ops_live control_ops c cd0 12 (marker_pos b) L) as (c1 & Q1 & L1); [repeat constructor; lia|exact Hm|change (oplen control_ops) with 52; lia|].
  change (12 + oplen control_ops) with 64 in L1. rewrite Q1. cbn [bind]. set (cd1 := interp 12 control_ops cd0) in *.
  assert (C1 : forall f, control_pos f <> None -> cd1 f = cval b f) by (intros f A; destruct (control_pos f) eqn:Cp; [eapply interp_control; eauto|congruence]).
  clearbody cd1.
  assert (Ex : cd1 EXTRA = cval b EXTRA) by (apply C1; discriminate). rewrite Ex. assert (Ex' : cval b EXTRA = wd b 57) by reflexivity.
  destruct (su_extra b Su) as [E0|E18].
  - rewrite E0. cbn [Z.ltb Z.compare]. eexists _, _. split; [reflexivity|].
    assert (Ho : higher_order b = false). { unfold higher_order, cval. cbn [control_pos extra_pos]. rewrite <- Ex', E0. reflexivity. }
    assert (Ce : control_end b = 64). { unfold control_end. rewrite Ho, E0. reflexivity. }
    rewrite Ce. split; [exact L1|]. split.
    + intros f A. destruct (extra_pos f) as [i|] eqn:Xp.
      * rewrite no_extra_zero by (left; congruence). rewrite (cval_extra f i Xp), E0. reflexivity.
      * destruct A as [A|A]; [|congruence]. rewrite no_extra_keep; [apply C1; exact A|exact Xp|]. intros ->. apply A. reflexivity.
    + unfold npart. rewrite Ho. apply no_extra_zero. right. reflexivity.
  - assert (0 <? cval b EXTRA = true) as -> by lia.
    assert (Ce : 64 + cval b EXTRA <= control_end b). { unfold control_end. pose proof npart_nonneg. destruct (higher_order b); lia. }
    destruct (run_ops_live extra_ops c1 cd1 64 (marker_pos b) L1) as (c2 & Q2 & L2); [repeat constructor|exact Hm|change (oplen extra_ops) with 18; lia|].
    change (64 + oplen extra_ops) with 82 in L2. rewrite Q2. cbn [bind]. set (cd2 := interp 64 extra_ops cd1) in *.
    assert (C2 : forall f, control_pos f <> None \/ extra_pos f <> None -> cd2 f = cval b f).
    { intros f A. unfold cd2. rewrite interp_extra. destruct (extra_pos f) as [i|] eqn:Xp.
      - rewrite (cval_extra f i Xp). assert (0 <? cval b EXTRA = true) as -> by lia. reflexivity.
      - apply C1. destruct A; congruence. }
    clearbody cd2.
    rewrite (C2 EXTRA) by (left; discriminate). rewrite (C2 QUADR), (C2 CUBIC) by (right; discriminate).
    rewrite u64_id by (pose proof (cval_unsigned EXTRA ltac:(discriminate) ltac:(discriminate)); lia).
    assert (Bl : below b (64 + cval b EXTRA)) by (eapply has_below; eauto; lia).
    destruct (skip_live b So c2 82 (cval b EXTRA - 18) L2) as (c3 & Q3 & L3); [lia|apply below_bound in Bl; lia|].
    rewrite Q3. cbn [bind]. replace (82 + (cval b EXTRA - 18)) with (64 + cval b EXTRA) in L3 by lia. apply reach_live in L3; auto.
    fold (higher_order b). unfold npart, control_end. pose proof npart_nonneg as Nn. unfold npart in Nn. destruct (higher_order b) eqn:Ho.
    + assert (Hn : npart b = wd b (64 + cval b EXTRA)) by (unfold npart; rewrite Ho; reflexivity). rewrite Hn.
      assert (Ce' : control_end b = 64 + cval b EXTRA + (1 + 9 * wd b (64 + cval b EXTRA))) by (unfold control_end; rewrite Ho, Hn; reflexivity).
      destruct (word_live b So Al Er c3 _ L3) as (c4 & Q4 & L4 & _); [eapply has_le; eauto; lia|]. rewrite Q4. cbn [bind].
      set (n := wd b (64 + cval b EXTRA)) in *.
      destruct (Z.eq_dec n 0) as [Z0|Nz].
      * rewrite Z0. cbn [Z.to_nat repeat skips bind]. eexists _, _. split; [reflexivity|]. split; [replace (64 + cval b EXTRA + (1 + 9 * 0)) with (64 + cval b EXTRA + 1) by lia; exact L4|]. split; [|reflexivity].
        intros f A. unfold upd. destruct f; cbn [field_beq]; try (apply C2; exact A). destruct A as [A|A]; cbn in A; congruence.
      * assert (Sm : sum (repeat 9 (Z.to_nat n)) = 9 * n) by (rewrite repeat9_sum; lia).
        assert (Bn : below b (64 + cval b EXTRA + 1 + 9 * n)) by (eapply has_below; eauto; lia).
        destruct (skips_live b So (repeat 9 (Z.to_nat n)) c4 (64 + cval b EXTRA + 1) L4) as (c5 & Q5 & L5).
        -- destruct (Z.to_nat n) eqn:X; [lia|discriminate].
        -- clear. induction (Z.to_nat n); cbn; constructor; auto; lia.
        -- rewrite Sm. apply below_bound in Bn. lia.
        -- rewrite Q5. cbn [bind]. rewrite Sm in L5. apply reach_live in L5; auto. eexists _, _. split; [reflexivity|]. split; [rewrite Z.add_assoc; exact L5|]. split; [|reflexivity].
           intros f A. unfold upd. destruct f; cbn [field_beq]; try (apply C2; exact A). destruct A as [A|A]; cbn in A; congruence.
    + eexists _, _. split; [reflexivity|]. rewrite Z.add_0_r. split; [exact L3|]. split; [|reflexivity].
      intros f A. unfold upd. destruct f; cbn [field_beq]; try (apply C2; exact A). destruct A as [A|A]; cbn in A; congruence.
Qed.

(** ** Derived values *)
Lemma small x : 0 <= x <= marker_pos b -> u64 x = x.
Proof. intros X. apply u64_id. pose proof has_marker as (_ & H). pose proof (ws_pos b So). pose proof (tot b So). nia. Qed.
Lemma ioshl_range v : 0 <= ioshl v <= 1.
Proof. unfold ioshl. destruct (v =? 1000); lia. Qed.
Lemma maxint_nonneg : 0 <= maxint_of (cval b MAXINT).
Proof. unfold maxint_of. destruct (Z.ltb_spec (cval b MAXINT) (-10000)); lia. Qed.
Lemma per_ip_range : 0 <= per_ip b <= 255 * 262.
Proof.
  unfold per_ip. pose proof maxint_nonneg. pose proof (su_maxint b Su). pose proof (su_neips b Su). nn NEIPS. pose proof (ioshl_range (cval b IOSHL0)). pose proof (ioshl_range (cval b IOSHL1)). nia.
Qed.

Lemma derive_ok cd : (forall f, control_pos f <> None \/ extra_pos f <> None -> cd f = cval b f) -> cd NPART = npart b ->
  exists cd', derive cd = OK (cd', istrn_of b, None) /\ forall f, f <> NUMRBS -> cd' f = control_value b f.
Proof.
  intros C Cn. unfold derive, beamip.
  pose proof (su_neipb b Su) as Nb. nn NEIPB. pose proof (cval_unsigned NV1D ltac:(discriminate) ltac:(discriminate)). pose proof (cval_unsigned IDTDT ltac:(discriminate) ltac:(discriminate)) as Ui.
  rewrite (C NEIPB) by (right; discriminate). rewrite (C NV1D) by (left; discriminate).
  rewrite (u64_id (5 + cval b NEIPB)) by lia. rewrite (u64_id (cval b NEIPB * 3)) by lia. destruct (Z.eqb_spec (5 + cval b NEIPB) 0); [lia|]. cbn [bind].
  set (bi := u64 (cval b NV1D - 6 - cval b NEIPB * 3) / (5 + cval b NEIPB)).
  assert (Bi : bi = control_value b BEAMIP) by (unfold bi; cbn [control_value]; rewrite (Z.mul_comm _ 3); reflexivity). clearbody bi.
  unfold upd at 1. cbn [field_beq]. rewrite (C NDIM) by (left; discriminate). rewrite (su_ndim b Su). cbn [dims Z.eqb Pos.eqb orb negb].
  set (cd1 := upd (upd (upd cd BEAMIP bi) NDIM 3) PACKED 0).
  match goal with |- context [nth_digit (?c IDTDT) 0] => set (cd3 := c) end.
  assert (C3 : forall f, cd3 f = match f with BEAMIP => bi | NDIM => 3 | PACKED => 0 | IOSOL0 => iosol (cd IOSHL0) | IOSOL1 => iosol (cd IOSHL1)
     | IOSHL0 => ioshl (cd IOSHL0) | IOSHL1 => ioshl (cd IOSHL1) | IOSHL2 => ioshl (cd IOSHL2) | IOSHL3 => ioshl (cd IOSHL3) | _ => cd f end) by (intros f; destruct f; reflexivity).
  clearbody cd3. rewrite (C3 IDTDT), (C3 MAXINT), (C IDTDT), (C MAXINT) by (left; discriminate).
  rewrite !nth_digit_spec by lia. cbn [bind].
  pose proof (su_idtdt b Su) as Di.
  destruct (Z.eqb_spec (digit_of (cval b IDTDT) 0) 1) as [X|_]; [exfalso; apply (Di 0) in X; [assumption|lia]|].
  destruct (Z.eqb_spec (digit_of (cval b IDTDT) 1) 1) as [X|_]; [exfalso; apply (Di 1) in X; [assumption|lia]|].
  destruct (Z.eqb_spec (digit_of (cval b IDTDT) 2) 1) as [X|_]; [exfalso; apply (Di 2) in X; [assumption|lia]|].
  destruct (Z.eqb_spec (digit_of (cval b IDTDT) 3) 1) as [X|_]; [exfalso; apply (Di 3) in X; [assumption|lia]|].
  cbn [first_error]. pose proof (su_maxint b Su) as Mx.
  destruct (Z.eqb_spec (cval b MAXINT) (- 2 ^ 63)) as [X|_]; [exfalso; unfold maxint_of in Mx; rewrite X in Mx; cbn in Mx; lia|].
  rewrite mdl_spec. set (cd4 := upd (upd cd3 MDLOPT (mdlopt_of (cval b MAXINT))) MAXINT (maxint_of (cval b MAXINT))).
  assert (C4 : forall f, f <> NUMRBS -> cd4 f = control_value b f).
  { intros f Nf. unfold cd4, upd. destruct f; try (exfalso; apply Nf; reflexivity); cbn [field_beq]; rewrite ?C3; cbn [control_value]; rewrite ?C by (first [left; discriminate|right; discriminate]); auto. }
  clearbody cd4. 
  assert (Is : istrn cd4 = OK (istrn_of b)).
  { unfold istrn, istrn_of. rewrite !C4 by discriminate. cbn [control_value]. pose proof per_ip_range as Pi. fold (per_ip b). rewrite (u64_id (per_ip b)) by lia.
    pose proof (ioshl_range (cval b IOSHL2)). pose proof (ioshl_range (cval b IOSHL3)). rewrite (u64_id (per_ip b + _ + _)) by lia. rewrite (u64_id (_ + 1)) by lia.
    destruct (Z.ltb_spec (cval b IDTDT) 100), (Z.leb_spec 100 (cval b IDTDT)); try lia.
    - destruct (Z.ltb_spec 0 (cval b NV2D)).
      + f_equal. f_equal. match goal with |- (if ?x then _ else _) = (if ?y then _ else _) => replace x with y; [reflexivity|] end. lia.
      + nn NV2D. nn NV3DT. destruct (Z.ltb_spec 0 (cval b NELT)); [|reflexivity]. pose proof (su_tshell b Su ltac:(lia) ltac:(lia)).
        pose proof (cval_unsigned NV3DT ltac:(discriminate) ltac:(discriminate)). rewrite u64_id by lia. reflexivity.
    - rewrite nth_digit_spec by lia. cbn [bind]. unfold u8. rewrite Z.mod_small; [reflexivity|]. unfold digit_of. pose proof (Z.mod_pos_bound (cval b IDTDT / 10 ^ 4) 10). lia. }
  rewrite Is. cbn [bind]. exists cd4. split; [|exact C4]. rewrite !C4 by discriminate. cbn [control_value].
  pose proof (su_zero b Su) as Ze. rewrite (Ze IALEMAT), (Ze NMSPH), (Ze NPEFG), (Ze NUMDS), (Ze NUMST), (Ze IT) by (cbn; tauto).
  pose proof (su_neips b Su). destruct (Z.ltb_spec 255 (cval b NEIPS)); [lia|]. destruct (Z.ltb_spec 255 (maxint_of (cval b MAXINT))); [lia|].
  destruct (su_icode b Su) as [-> | ->]; reflexivity.
Qed.
End Open.
