(** * A plot that opens without an error is consistent *)
From Verif Require Import CBase CBaseFacts BinModel D3BufModel D3BufSpec D3BufProofs D3Model D3Spec D3CurProofs D3OpenProofs D3BadProofs D3SectProofs.
Open Scope Z_scope.

Definition good (r : res plot) : Prop := exists pl, r = OK pl /\ pl_err pl = None.
Lemma ear_bad c pl e : ~ good (error_and_return c pl e).
Proof. intros (p & Q & E). unfold error_and_return in Q. destruct (pointer_close _ _); cbn [bind] in Q; try discriminate. injection Q as <-. discriminate E. Qed.
Lemma UB_bad : ~ good UB.
Proof. intros (p & Q & _). discriminate Q. Qed.

Section Sound.
Context (b : dbuf) (So : sound_family b) (Al : aligned b) (Er : d_err b = None) (By : bytes_ok b) (N8 : 0 <= cval b NEL8) (Sz : marker_pos b < 2 ^ 60).
Notation live := (live b).
Notation dead := (dead b).
Notation reach := (reach b).

Lemma uns f : f <> NEL8 -> f <> MAXINT -> 0 <= cval b f < 2 ^ 64.
Proof.
  intros A B. unfold cval. destruct (control_pos f) as [i|]; [|destruct (extra_pos f) as [i|]].
  - destruct f; try congruence; apply (wd_u64 b So By).
  - destruct (0 <? wd b 57); [apply (wd_u64 b So By)|lia].
  - lia.
Qed.
Ltac nn f := pose proof (proj1 (uns f ltac:(discriminate) ltac:(discriminate))).
Lemma ws48 : d_ws b = 4 \/ d_ws b = 8.
Proof. apply So. Qed.
Lemma ord : 64 <= control_end b /\ control_end b <= g_el8 b <= g_elt b /\ g_elt b <= g_el2 b <= g_el4 b /\ g_el4 b <= geometry_end b <= ids_end b /\ ids_end b <= ids_end b + extra_nodes b <= marker_pos b.
Proof.
  nn NUMNP. nn NELT. nn NEL2. nn NEL4. nn NADAPT. nn EXTRA. nn NMMAT.
  assert (Np : 0 <= npart b) by (unfold npart; destruct (higher_order b); [apply (wd_u64 b So By)|lia]).
  assert (Xn : 0 <= extra_nodes b).
  { unfold extra_nodes. nn NEL48. nn NEL20. nn NEL27. nn NEL21P. nn NEL15T. nn NEL20T. nn NEL40P. nn NEL64. unfold if_pos. destruct (0 <? cval b QUADR), (0 <? cval b CUBIC); lia. }
  assert (Nm : 0 <= ids_nmmat b) by (unfold ids_nmmat; destruct (part_ids_present b); [apply (wd_u64 b So By)|assumption]).
  assert (64 <= control_end b) by (unfold control_end; destruct (higher_order b); lia).
  assert (g_el8 b = control_end b + 3 * cval b NUMNP) by reflexivity. assert (g_elt b = g_el8 b + 9 * cval b NEL8) by reflexivity. assert (g_el2 b = g_elt b + 9 * cval b NELT) by reflexivity.
  assert (g_el4 b = g_el2 b + 6 * cval b NEL2) by reflexivity. assert (geometry_end b = g_el4 b + 5 * cval b NEL4) by reflexivity. assert (marker_pos b = ids_end b + extra_nodes b + 2 * cval b NADAPT) by reflexivity.
  assert (geometry_end b <= ids_end b). { unfold ids_end. destruct (has_ids b); [|lia]. unfold i_parts, i_elt, i_el4, i_el2, i_el8, ids_start. destruct (part_ids_present b); lia. }
  lia.
Qed.
Lemma sm x : 0 <= x <= marker_pos b + 100 -> u64 x = x.
Proof. intros X. apply u64_id. lia. Qed.

(** One step: either it works, or the cursor is dead. *)
Lemma word_any c pos : live c pos -> (has b pos /\ exists c', word c = OK (c', wd b pos) /\ live c' (pos + 1) /\ 0 < p_pos (snd c')) \/ exists c' v, word c = OK (c', v) /\ dead c'.
Proof.
  intros L. destruct (Z.le_gt_cases ((pos + 1) * d_ws b) (total b)) as [Hs|Hs].
  - assert (H : has b pos) by (split; [apply L|exact Hs]). left. split; [exact H|]. apply (word_live b So Al Er c pos L H).
  - right. apply (word_out b So Er c pos L). unfold has. lia.
Qed.
Lemma skip_any c pos n q : live c pos -> 0 <= n -> q = pos + n -> q <= marker_pos b + 100 -> exists c', skip c n = OK c' /\ ((live c' q /\ below b q) \/ dead c').
Proof.
  intros L N -> M. destruct (skip_live b So c pos n L N) as (c' & Q & R); [destruct ws48 as [W|W]; rewrite W; lia|]. exists c'. split; [exact Q|].
  destruct (below_dec b (pos + n)) as [B|B]; [left; split; [apply (reach_live b); auto|exact B]|right; apply R; exact B].
Qed.

(** The control data. *)
Lemma control_sound c cd0 : live c 12 -> read_control c cd0 = UB \/ (exists c' cd, read_control c cd0 = OK (c', cd) /\ dead c') \/
  (exists c' cd, read_control c cd0 = OK (c', cd) /\ live c' (control_end b) /\ (cval b EXTRA = 0 \/ 18 <= cval b EXTRA) /\
    forall f, control_pos f <> None \/ extra_pos f <> None -> cd f = cval b f).
Proof.
  intros L. pose proof ord as (O1 & O2 & O3 & O4 & O5). nn EXTRA. assert (Ex' : cval b EXTRA = wd b 57) by reflexivity.
  destruct (Z.eq_dec (cval b EXTRA) 0) as [E0|E0]; [|destruct (Z.lt_ge_cases (cval b EXTRA) 18) as [E1|E18]].
  2:{ destruct (control_bad b So Al Er c cd0 L) as [X|X]; [right; lia|auto|auto]. }
  - unfold read_control. destruct (run_ops_any b So Al Er control_ops c cd0 12 L) as [Q|[(c1 & cd1 & Q & D)|(c1 & Q & L1 & _)]]; [repeat constructor; cbn; lia|rewrite Q; left; reflexivity| |].
    + rewrite Q. cbn [bind]. destruct (0 <? cd1 EXTRA); [left; rewrite (no_extra_ops b c1 cd1 D); reflexivity|right; left; eauto].
    + rewrite Q. cbn [bind]. change (12 + oplen control_ops) with 64 in L1. set (cd1 := interp b 12 control_ops cd0) in *.
      assert (C1 : forall f, control_pos f <> None -> cd1 f = cval b f) by (intros f A; destruct (control_pos f) eqn:Cp; [eapply interp_control; eauto|congruence]).
      clearbody cd1. rewrite (C1 EXTRA) by discriminate. rewrite E0. cbn [Z.ltb Z.compare]. right. right. eexists _, _. split; [reflexivity|].
      assert (Ho : higher_order b = false). { unfold higher_order, cval. cbn [control_pos extra_pos]. rewrite <- Ex', E0. reflexivity. }
      assert (Ce : control_end b = 64). { unfold control_end. rewrite Ho, E0. reflexivity. }
      rewrite Ce. split; [exact L1|]. split; [left; reflexivity|]. intros f A. destruct (extra_pos f) as [i|] eqn:Xp.
      * rewrite no_extra_zero by (left; congruence). rewrite (cval_extra b f i Xp), E0. reflexivity.
      * destruct A as [A|A]; [|congruence]. rewrite no_extra_keep; [apply C1; exact A|exact Xp|]. intros ->. apply A. reflexivity.
  - unfold read_control. destruct (run_ops_any b So Al Er control_ops c cd0 12 L) as [Q|[(c1 & cd1 & Q & D)|(c1 & Q & L1 & _)]]; [repeat constructor; cbn; lia|rewrite Q; left; reflexivity| |].
    + rewrite Q. cbn [bind]. destruct (0 <? cd1 EXTRA); [left; rewrite (no_extra_ops b c1 cd1 D); reflexivity|right; left; eauto].
    + rewrite Q. cbn [bind]. change (12 + oplen control_ops) with 64 in L1. set (cd1 := interp b 12 control_ops cd0) in *.
      assert (C1 : forall f, control_pos f <> None -> cd1 f = cval b f) by (intros f A; destruct (control_pos f) eqn:Cp; [eapply interp_control; eauto|congruence]).
      clearbody cd1. rewrite (C1 EXTRA) by discriminate. assert (Ep : 0 <? cval b EXTRA = true) by lia. rewrite Ep.
      destruct (run_ops_any b So Al Er extra_ops c1 cd1 64 L1) as [Q2|[(c2 & cd2 & Q2 & D)|(c2 & Q2 & L2 & _)]]; [repeat constructor|rewrite Q2; left; reflexivity| |].
      * rewrite Q2. cbn [bind]. destruct (skip_dead b c2 (u64 (cd2 EXTRA - 18)) D) as (c3 & Q3 & D3); [apply Z.mod_pos_bound; lia|]. rewrite Q3. cbn [bind].
        destruct (_ || _); [left; rewrite (word_dead b c3 D3); reflexivity|right; left; eauto].
      * rewrite Q2. cbn [bind]. change (64 + oplen extra_ops) with 82 in L2. set (cd2 := interp b 64 extra_ops cd1) in *.
        assert (C2 : forall f, control_pos f <> None \/ extra_pos f <> None -> cd2 f = cval b f).
        { intros f A. unfold cd2. rewrite interp_extra. destruct (extra_pos f) as [i|] eqn:Xp.
          - rewrite (cval_extra b f i Xp), Ep. reflexivity.
          - apply C1. destruct A; congruence. }
        clearbody cd2. rewrite (C2 EXTRA) by (left; discriminate). rewrite (C2 QUADR), (C2 CUBIC) by (right; discriminate).
        assert (Np : 0 <= npart b) by (unfold npart; destruct (higher_order b); [apply (wd_u64 b So By)|lia]).
        assert (Ce : 64 + cval b EXTRA <= control_end b) by (unfold control_end; destruct (higher_order b); lia).
        rewrite (sm (cval b EXTRA - 18)) by lia. destruct (skip_any c2 82 (cval b EXTRA - 18) (64 + cval b EXTRA) L2) as (c3 & Q3 & [(L3 & _)|D3]); [lia|lia|lia| |].
        2:{ rewrite Q3. cbn [bind]. destruct (_ || _); [left; rewrite (word_dead b c3 D3); reflexivity|right; left; eauto]. }
        rewrite Q3. cbn [bind]. fold (higher_order b). unfold control_end in *. destruct (higher_order b) eqn:Ho.
        -- assert (Hn : npart b = wd b (64 + cval b EXTRA)) by (unfold npart; rewrite Ho; reflexivity). rewrite Hn in *. set (n := wd b (64 + cval b EXTRA)) in *.
           assert (Keep : forall f, control_pos f <> None \/ extra_pos f <> None -> upd cd2 NPART n f = cval b f).
           { intros f A. unfold upd. destruct f; cbn [field_beq]; try (apply C2; exact A). destruct A as [A|A]; cbn in A; congruence. }
           destruct (word_any c3 _ L3) as [(_ & c4 & Q4 & L4 & _)|(c4 & v & Q4 & D4)].
           ++ rewrite Q4. cbn [bind]. fold n. destruct (Z.eq_dec n 0) as [Z0|Nz].
              ** rewrite Z0 in Keep |- *. cbn [Z.to_nat repeat skips bind]. right. right. eexists _, _. split; [reflexivity|]. split; [replace (64 + cval b EXTRA + (1 + 9 * 0)) with (64 + cval b EXTRA + 1) by lia; exact L4|]. split; [right; lia|exact Keep].
              ** assert (Sm : sum (repeat 9 (Z.to_nat n)) = 9 * n) by (rewrite repeat9_sum; lia).
                 destruct (skips_live b So (repeat 9 (Z.to_nat n)) c4 (64 + cval b EXTRA + 1) L4) as (c5 & Q5 & L5).
                 --- destruct (Z.to_nat n) eqn:X; [lia|discriminate].
                 --- clear. induction (Z.to_nat n); cbn; constructor; auto; lia.
                 --- rewrite Sm. destruct ws48 as [W|W]; rewrite W; lia.
                 --- rewrite Q5. cbn [bind]. rewrite Sm in L5. destruct (below_dec b (64 + cval b EXTRA + 1 + 9 * n)) as [B|B].
                     +++ right. right. eexists _, _. split; [reflexivity|]. split; [rewrite Z.add_assoc; apply (reach_live b); auto|]. split; [right; lia|exact Keep].
                     +++ right. left. eexists _, _. split; [reflexivity|]. apply L5. exact B.
           ++ rewrite Q4. cbn [bind]. 
              assert (Sd : forall k c0, dead c0 -> exists c', skips c0 (repeat 9 k) = OK c' /\ dead c').
              { induction k as [|k IH]; intros c0 D0; cbn [repeat skips]; [eauto|]. destruct (skip_dead b c0 9 D0) as (c' & Qs & D'); [lia|]. rewrite Qs. cbn [bind]. apply IH. exact D'. }
              destruct (Sd (Z.to_nat v) c4 D4) as (c5 & Q5 & D5). rewrite Q5. cbn [bind]. right. left. eauto.
        -- right. right. eexists _, _. split; [reflexivity|]. rewrite Z.add_0_r. split; [exact L3|]. split; [right; lia|]. intros f A. unfold upd. destruct f; cbn [field_beq]; try (apply C2; exact A). destruct A as [A|A]; cbn in A; congruence.
Qed.

(** The checks of the control data. *)
Record checked : Prop := {
  ck_ndim : cval b NDIM = 3 \/ cval b NDIM = 4; ck_icode : cval b ICODE = 2 \/ cval b ICODE = 6; ck_idtdt : forall n, 0 <= n <= 3 -> digit_of (cval b IDTDT) n <> 1;
  ck_neips : cval b NEIPS <= 255; ck_maxint : maxint_of (cval b MAXINT) <= 255; ck_zero : forall f, In f [IALEMAT; NMSPH; NPEFG; NUMDS; NUMST; IT] -> cval b f = 0 }.
Lemma first_error_none : forall l, first_error l = None -> forall x, In x l -> fst x = false.
Proof. induction l as [|[[|] e] l IH]; cbn [first_error]; intros E x I0; [destruct I0|discriminate E|]. destruct I0 as [<- |I0]; auto. Qed.
Lemma derive_sound cd cd' is : (forall f, control_pos f <> None \/ extra_pos f <> None -> cd f = cval b f) -> derive cd = OK (cd', is, None) ->
  checked /\ cd' PACKED = (if cval b NDIM =? 3 then 1 else 0) /\ forall f, control_pos f <> None \/ extra_pos f <> None -> cd' f = control_value b f.
Proof.
  intros C. unfold derive. destruct (beamip cd) as [bi| |]; cbn [bind]; try discriminate. unfold upd at 1. cbn [field_beq]. rewrite (C NDIM) by (left; discriminate).
  destruct (dims (cval b NDIM)) as [[mt nd] pk] eqn:Dm. destruct (Z.eqb_spec nd 3) as [->|]; [|discriminate]. cbn [negb].
  match goal with |- context [nth_digit (?c IDTDT) 0] => set (cd3 := c) end.
  assert (C3 : forall f, cd3 f = match f with BEAMIP => bi | NDIM => 3 | PACKED => pk | IOSOL0 => iosol (cd IOSHL0) | IOSOL1 => iosol (cd IOSHL1)
     | IOSHL0 => ioshl (cd IOSHL0) | IOSHL1 => ioshl (cd IOSHL1) | IOSHL2 => ioshl (cd IOSHL2) | IOSHL3 => ioshl (cd IOSHL3) | _ => cd f end) by (intros f; destruct f; reflexivity).
  clearbody cd3. rewrite (C3 IDTDT), (C3 MAXINT), (C IDTDT), (C MAXINT) by (left; discriminate).
  pose proof (uns IDTDT ltac:(discriminate) ltac:(discriminate)) as Ui. rewrite !nth_digit_spec by lia. cbn [bind].
  destruct (Z.eqb_spec (digit_of (cval b IDTDT) 0) 1) as [|D0]; [discriminate|]. destruct (Z.eqb_spec (digit_of (cval b IDTDT) 1) 1) as [|D1]; [discriminate|].
  destruct (Z.eqb_spec (digit_of (cval b IDTDT) 2) 1) as [|D2]; [discriminate|]. destruct (Z.eqb_spec (digit_of (cval b IDTDT) 3) 1) as [|D3]; [discriminate|]. change (first_error [(false, P_idtdt); (false, P_idtdt); (false, P_idtdt); (false, P_idtdt)]) with (@None perr). cbv iota.
  destruct (cval b MAXINT =? - 2 ^ 63); [discriminate|]. rewrite mdl_spec. set (cd4 := upd (upd cd3 MDLOPT (mdlopt_of (cval b MAXINT))) MAXINT (maxint_of (cval b MAXINT))).
  assert (C4 : forall f, control_pos f <> None \/ extra_pos f <> None -> cd4 f = control_value b f).
  { intros f Nf. unfold cd4, upd. destruct f; cbn [field_beq]; rewrite ?C3; cbn [control_value]; rewrite ?C by (first [left; discriminate|right; discriminate]); try reflexivity; exfalso; destruct Nf as [Nf|Nf]; apply Nf; reflexivity. }
  assert (P4 : cd4 PACKED = pk) by (unfold cd4, upd; cbn [field_beq]; rewrite C3; reflexivity). clearbody cd4.
  destruct (istrn cd4) as [is'| |]; cbn [bind]; try discriminate. match goal with |- context [first_error ?l] => remember (first_error l) as fe eqn:Fq end. intros [= <- <- Fe]. rewrite Fe in Fq. symmetry in Fq. clear Fe. rename Fq into Fe.
  pose proof (first_error_none _ Fe) as Ck. clear Fe.
  assert (Mt : mt = false) by (apply (Ck (mt, P_mattyp)); cbn; tauto).
  assert (Nd : (cval b NDIM = 3 /\ pk = 1) \/ (cval b NDIM = 4 /\ pk = 0)).
  { unfold dims in Dm. destruct ((cval b NDIM =? 5) || (cval b NDIM =? 7)); [congruence|]. destruct (Z.eqb_spec (cval b NDIM) 3); [left; split; [assumption|congruence]|].
    destruct (Z.eqb_spec (cval b NDIM) 4); [right; split; [assumption|congruence]|congruence]. }
  split; [|split; [|exact C4]].
  2:{ rewrite P4. destruct Nd as [(-> & ->)|(-> & ->)]; reflexivity. }
  assert (In2 : forall g e, In (g, e) [(negb ((cd4 ICODE =? 2) || (cd4 ICODE =? 6)), P_order); (255 <? cd4 NEIPS, P_neips); (255 <? cd4 MAXINT, P_maxint_large); (mt, P_mattyp); (negb (cd4 IALEMAT =? 0), P_ialemat); (negb (cd4 NMSPH =? 0), P_nmsph);
    (negb (cd4 NPEFG =? 0), P_npefg); (negb (cd4 NUMDS =? 0), P_numds); (negb (cd4 NUMST =? 0), P_numst); (negb (cd4 IT =? 0), P_it)] -> g = false) by (intros g e X; apply (Ck (g, e) X)).
  clear Ck. assert (V : forall f, control_pos f <> None -> cd4 f = control_value b f) by (intros f X; apply C4; left; exact X).
  constructor.
  - destruct Nd as [(-> & _)|(-> & _)]; auto.
  - pose proof (In2 _ P_order ltac:(cbn; tauto)) as X. rewrite V in X by discriminate. cbn [control_value] in X. lia.
  - intros n Hn. assert (n = 0 \/ n = 1 \/ n = 2 \/ n = 3) as [-> |[-> |[-> | ->]]] by lia; assumption.
  - pose proof (In2 _ P_neips ltac:(cbn; tauto)) as X. rewrite V in X by discriminate. cbn [control_value] in X. lia.
  - pose proof (In2 _ P_maxint_large ltac:(cbn; tauto)) as X. rewrite V in X by discriminate. cbn [control_value] in X. lia.
  - assert (Z0 : forall f, negb (cd4 f =? 0) = false -> cd4 f = 0) by (intros f X; lia).
    intros f [<- |[<- |[<- |[<- |[<- |[<- |[]]]]]]].
    + change (cval b IALEMAT) with (control_value b IALEMAT). rewrite <- (V IALEMAT) by discriminate. apply Z0. apply (In2 _ P_ialemat). cbn; tauto.
    + change (cval b NMSPH) with (control_value b NMSPH). rewrite <- (V NMSPH) by discriminate. apply Z0. apply (In2 _ P_nmsph). cbn; tauto.
    + change (cval b NPEFG) with (control_value b NPEFG). rewrite <- (V NPEFG) by discriminate. apply Z0. apply (In2 _ P_npefg). cbn; tauto.
    + change (cval b NUMDS) with (control_value b NUMDS). rewrite <- (V NUMDS) by discriminate. apply Z0. apply (In2 _ P_numds). cbn; tauto.
    + change (cval b NUMST) with (control_value b NUMST). rewrite <- (V NUMST) by discriminate. apply Z0. apply (In2 _ P_numst). cbn; tauto.
    + change (cval b IT) with (control_value b IT). rewrite <- (V IT) by discriminate. apply Z0. apply (In2 _ P_it). cbn; tauto.
Qed.

(** The sections. *)
Definition section_ok (r : res (dbuf * dptr * plot * Z)) (k : (dbuf * dptr) -> plot -> Prop) : Prop :=
  r = UB \/ (exists c pl e, r = OK (c, fail pl e, 0)) \/ (exists c pl, r = OK (c, pl, 1) /\ k c pl).
Lemma geometry_sound c pl : live c (control_end b) -> pl_cd pl NDIM = 3 -> (forall f, control_pos f <> None \/ extra_pos f <> None -> pl_cd pl f = control_value b f) ->
  section_ok (geometry c pl) (fun c' pl' => live c' (geometry_end b) /\ pl_cd pl PACKED = 0 /\ pl_cd pl' = pl_cd pl).
Proof.
  intros L Nd C. pose proof ord as (O1 & O2 & O3 & O4 & O5). unfold geometry. cbv zeta. rewrite Nd. rewrite (C NUMNP), (C NEL8), (C NELT), (C NEL2), (C NEL4) by (left; discriminate). cbn [control_value].
  destruct (Z.eqb_spec (pl_cd pl PACKED) 0) as [P0|P0]; cbn [negb]; [|right; left; eexists _, _, _; reflexivity].
  assert (W : cw c = control_end b) by apply L. rewrite W. nn NELT. nn NEL2. nn NEL4. nn NUMNP.
  assert (E8 : g_el8 b = control_end b + 3 * cval b NUMNP) by reflexivity. assert (Et : g_elt b = g_el8 b + 9 * cval b NEL8) by reflexivity. assert (E2 : g_el2 b = g_elt b + 9 * cval b NELT) by reflexivity.
  assert (E4 : g_el4 b = g_el2 b + 6 * cval b NEL2) by reflexivity. assert (Ee : geometry_end b = g_el4 b + 5 * cval b NEL4) by reflexivity.
  replace (control_end b + cval b NUMNP * 3) with (g_el8 b) by lia. rewrite (sm (g_el8 b)) by lia.
  replace (if 0 <? cval b NEL8 then (cval b NEL8, g_el8 b) else (- cval b NEL8, u64 (g_el8 b + 2 * - cval b NEL8))) with (cval b NEL8, g_el8 b)
    by (destruct (Z.ltb_spec 0 (cval b NEL8)); [reflexivity|]; replace (cval b NEL8) with 0 by lia; rewrite Z.add_0_r, sm by lia; reflexivity).
  replace (g_el8 b + 9 * cval b NEL8) with (g_elt b) by lia. rewrite (sm (g_elt b)) by lia.
  set (pl1 := with_ptr (with_ptr pl K_NODE_COORDS (control_end b)) K_EL8_CONNECT (g_el8 b)). assert (D1 : pl_cd pl1 = pl_cd pl) by reflexivity. clearbody pl1.
  replace (if 0 <? cval b NELT then (with_ptr pl1 K_ELT_CONNECT (g_elt b), u64 (g_elt b + 9 * cval b NELT)) else (pl1, g_elt b))
    with ((if 0 <? cval b NELT then with_ptr pl1 K_ELT_CONNECT (g_elt b) else pl1), g_el2 b)
    by (destruct (Z.ltb_spec 0 (cval b NELT)); f_equal; [rewrite sm; lia|lia]).
  set (pl2 := if 0 <? cval b NELT then _ else _). assert (D2 : pl_cd pl2 = pl_cd pl) by (unfold pl2; destruct (0 <? cval b NELT); exact D1). clearbody pl2.
  replace (if 0 <? cval b NEL2 then (with_ptr pl2 K_EL2_CONNECT (g_el2 b), u64 (g_el2 b + 6 * cval b NEL2)) else (pl2, g_el2 b))
    with ((if 0 <? cval b NEL2 then with_ptr pl2 K_EL2_CONNECT (g_el2 b) else pl2), g_el4 b)
    by (destruct (Z.ltb_spec 0 (cval b NEL2)); f_equal; [rewrite sm; lia|lia]).
  set (pl3 := if 0 <? cval b NEL2 then _ else _). assert (D3 : pl_cd pl3 = pl_cd pl) by (unfold pl3; destruct (0 <? cval b NEL2); exact D2). clearbody pl3.
  replace (if 0 <? cval b NEL4 then (with_ptr pl3 K_EL4_CONNECT (g_el4 b), u64 (g_el4 b + 5 * cval b NEL4)) else (pl3, g_el4 b))
    with ((if 0 <? cval b NEL4 then with_ptr pl3 K_EL4_CONNECT (g_el4 b) else pl3), geometry_end b)
    by (destruct (Z.ltb_spec 0 (cval b NEL4)); f_equal; [rewrite sm; lia|lia]).
  set (pl4 := if 0 <? cval b NEL4 then _ else _). assert (D4 : pl_cd pl4 = pl_cd pl) by (unfold pl4; destruct (0 <? cval b NEL4); exact D3). clearbody pl4.
  rewrite (sm (geometry_end b - control_end b)) by lia.
  destruct (skip_any c (control_end b) (geometry_end b - control_end b) (geometry_end b) L) as (c' & Q & [(L' & _)|D]); [lia|lia|lia| |]; rewrite Q; cbn [bind].
  - rewrite (live_err b Er c' _ L'). right. right. eauto 8.
  - rewrite (dead_err b c' D). right. left. eexists _, _, _. reflexivity.
Qed.

Lemma ids_sound c pl : live c (geometry_end b) -> (forall f, control_pos f <> None \/ extra_pos f <> None -> pl_cd pl f = control_value b f) ->
  section_ok (user_ids c pl) (fun c' pl' => live c' (ids_end b) /\ ids_ok b /\ (forall f, control_pos f <> None \/ extra_pos f <> None -> pl_cd pl' f = control_value b f)).
Proof.
  intros L C. pose proof ord as (O1 & O2 & O3 & O4 & O5). unfold user_ids. cbv zeta. rewrite !(C NARBS) by (left; discriminate). cbn [control_value].
  assert (Upd : forall v f, control_pos f <> None \/ extra_pos f <> None -> upd (pl_cd pl) NUMRBS v f = control_value b f).
  { intros v f X. unfold upd. destruct f; cbn [field_beq]; try (apply C; exact X). destruct X as [X|X]; exfalso; apply X; reflexivity. }
  destruct (has_ids b) eqn:Hi.
  2:{ unfold has_ids in Hi. destruct (Z.eqb_spec (cval b NARBS) 0) as [Z0|]; [|discriminate Hi]. right. right. eexists _, _. split; [reflexivity|].
      assert (ids_end b = geometry_end b) as -> by (unfold ids_end, has_ids; rewrite Z0; reflexivity). split; [exact L|]. split; [intros X; unfold has_ids in X; rewrite Z0 in X; discriminate X|]. exact (Upd 0). }
  assert (Na : (cval b NARBS =? 0) = false) by (unfold has_ids in Hi; destruct (cval b NARBS =? 0); [discriminate Hi|reflexivity]). rewrite Na.
  assert (W : cw c = geometry_end b) by apply L. rewrite W.
  nn NELT. nn NEL2. nn NEL4. nn NUMNP. nn NMMAT. assert (Nm : 0 <= ids_nmmat b) by (unfold ids_nmmat; destruct (part_ids_present b); [apply (wd_u64 b So By)|assumption]).
  assert (Ie : ids_end b = i_parts b + 3 * ids_nmmat b) by (unfold ids_end; rewrite Hi; reflexivity).
  assert (I0 : ids_start b = geometry_end b + (if part_ids_present b then 16 else 10)) by reflexivity.
  assert (I1 : i_el8 b = ids_start b + cval b NUMNP) by reflexivity. assert (I2 : i_el2 b = i_el8 b + cval b NEL8) by reflexivity. assert (I3 : i_el4 b = i_el2 b + cval b NEL2) by reflexivity.
  assert (I4 : i_elt b = i_el4 b + cval b NEL4) by reflexivity. assert (I5 : i_parts b = i_elt b + cval b NELT) by reflexivity.
  assert (I6 : geometry_end b + 10 <= ids_start b <= geometry_end b + 16) by (rewrite I0; destruct (part_ids_present b); lia).
  assert (Du : forall c0 k, dead c0 -> section_ok (bind (word c0) k) (fun c' pl' => live c' (ids_end b) /\ ids_ok b /\ (forall f, control_pos f <> None \/ extra_pos f <> None -> pl_cd pl' f = control_value b f))) by (intros c0 k D; left; rewrite (word_dead b c0 D); reflexivity).
  assert (Fl : forall c0 pl0 e0, section_ok (sfail c0 pl0 e0) (fun c' pl' => live c' (ids_end b) /\ ids_ok b /\ (forall f, control_pos f <> None \/ extra_pos f <> None -> pl_cd pl' f = control_value b f))) by (intros c0 pl0 e0; right; left; eexists _, _, _; reflexivity).
  destruct (word_any c _ L) as [(_ & c1 & Q1 & L1 & _)|(c1 & v & Q1 & D)]; rewrite Q1; cbn [bind]; [|rewrite (dead_err b c1 D); apply Fl].
  rewrite (live_ws b c1 _ L1), (live_err b Er c1 _ L1). fold (part_ids_present b).
  destruct (skip_any c1 _ 4 (geometry_end b + 5) L1) as (c2 & Q2 & [(L2 & _)|D]); [lia|lia|lia| |]; rewrite Q2; cbn [bind]; [|apply Du; exact D].
  destruct (word_any c2 _ L2) as [(_ & c3 & Q3 & L3 & _)|(c3 & v & Q3 & D)]; rewrite Q3; cbn [bind]; [|apply Du; exact D]. replace (geometry_end b + 5 + 1) with (geometry_end b + 6) in L3 by lia.
  destruct (word_any c3 _ L3) as [(_ & c4 & Q4 & L4 & _)|(c4 & v & Q4 & D)]; rewrite Q4; cbn [bind]; [|apply Du; exact D]. replace (geometry_end b + 6 + 1) with (geometry_end b + 7) in L4 by lia.
  destruct (word_any c4 _ L4) as [(_ & c5 & Q5 & L5 & _)|(c5 & v & Q5 & D)]; rewrite Q5; cbn [bind]; [|apply Du; exact D]. replace (geometry_end b + 7 + 1) with (geometry_end b + 8) in L5 by lia.
  destruct (word_any c5 _ L5) as [(_ & c6 & Q6 & L6 & _)|(c6 & v & Q6 & D)]; rewrite Q6; cbn [bind]; [|apply Du; exact D]. replace (geometry_end b + 8 + 1) with (geometry_end b + 9) in L6 by lia.
  destruct (word_any c6 _ L6) as [(_ & c7 & Q7 & L7 & _)|(c7 & v & Q7 & D)]; rewrite Q7; cbn [bind]; [|rewrite (dead_err b c7 D); apply Fl]. replace (geometry_end b + 9 + 1) with (geometry_end b + 10) in L7 by lia.
  rewrite (live_err b Er c7 _ L7). rewrite (C NUMNP), (C NEL8), (C NELT), (C NEL2), (C NEL4) by (left; discriminate). cbn [control_value]. rewrite (sm (cval b NEL8)) by lia.
  destruct (Z.eqb_spec (wd b (geometry_end b + 5)) (cval b NUMNP)) as [K1|]; cbn [negb]; [|apply Fl]. destruct (Z.eqb_spec (wd b (geometry_end b + 6)) (cval b NEL8)) as [K2|]; cbn [negb]; [|apply Fl].
  destruct (Z.eqb_spec (wd b (geometry_end b + 7)) (cval b NEL2)) as [K3|]; cbn [negb]; [|apply Fl]. destruct (Z.eqb_spec (wd b (geometry_end b + 8)) (cval b NEL4)) as [K4|]; cbn [negb]; [|apply Fl].
  destruct (Z.eqb_spec (wd b (geometry_end b + 9)) (cval b NELT)) as [K5|]; cbn [negb]; [|apply Fl]. rewrite K1, K2, K3, K4, K5.
  match goal with |- context [bind ?x _] => assert (X : x = UB \/ (exists c8 cd8 n, x = OK (c8, cd8, n, true)) \/ exists c8 cd8, x = OK (c8, cd8, ids_nmmat b, false) /\ live c8 (ids_start b) /\ forall f, control_pos f <> None \/ extra_pos f <> None -> cd8 f = control_value b f) end.
  { unfold ids_nmmat. rewrite I0. destruct (part_ids_present b) eqn:Pp.
    - destruct (skip_any c7 _ 4 (geometry_end b + 14) L7) as (c8 & Q8 & [(L8 & _)|D]); [lia|lia|lia| |]; rewrite Q8; cbn [bind]; [|left; rewrite (word_dead b c8 D); reflexivity].
      destruct (word_any c8 _ L8) as [(_ & c9 & Q9 & L9 & _)|(c9 & v & Q9 & D)]; rewrite Q9; cbn [bind]; [|left; rewrite (word_dead b c9 D); reflexivity]. replace (geometry_end b + 14 + 1) with (geometry_end b + 15) in L9 by lia.
      destruct (word_any c9 _ L9) as [(_ & c10 & Q10 & L10 & _)|(c10 & v & Q10 & D)]; rewrite Q10; cbn [bind]; [|right; left; rewrite (dead_err b c10 D); eauto]. replace (geometry_end b + 15 + 1) with (geometry_end b + 16) in L10 by lia.
      rewrite (live_err b Er c10 _ L10). right. right. eexists _, _. split; [reflexivity|]. split; [exact L10|]. intros f X. unfold upd at 1. destruct f; cbn [field_beq]; try (apply Upd; exact X). exfalso. destruct X as [X|X]; apply X; reflexivity.
    - right. right. eexists _, _. split; [unfold upd; cbn [field_beq]; rewrite (C NMMAT) by (left; discriminate); reflexivity|]. split; [exact L7|]. exact (Upd 0). }
  destruct X as [->|[(c8 & cd8 & n & ->)|(c8 & cd8 & -> & L8 & C8)]]; cbn [bind]; [left; reflexivity|apply Fl|]. assert (W8 : cw c8 = ids_start b) by apply L8. rewrite W8. cbn [with_cd pl_cd].
  rewrite (sm (ids_start b + cval b NUMNP)) by lia. rewrite <- I1. rewrite (sm (i_el8 b + cval b NEL8)) by lia. rewrite <- I2. rewrite (sm (i_el2 b + cval b NEL2)) by lia. rewrite <- I3.
  rewrite (sm (i_el4 b + cval b NEL4)) by lia. rewrite <- I4. rewrite (sm (i_elt b + cval b NELT)) by lia. rewrite <- I5. rewrite (sm (i_parts b + 3 * ids_nmmat b)) by lia. rewrite <- Ie.
  rewrite (sm (ids_end b - ids_start b)) by lia.
  destruct (skip_any c8 _ (ids_end b - ids_start b) (ids_end b) L8) as (c9 & Q9 & [(L9 & _)|D]); [lia|lia|lia| |]; rewrite Q9; cbn [bind]; [|rewrite (dead_err b c9 D); apply Fl]. rewrite (live_err b Er c9 _ L9).
  assert (W9 : cw c9 = ids_end b) by apply L9. rewrite W9, C8 by (left; discriminate). cbn [control_value]. rewrite (sm (ids_end b - geometry_end b)) by lia.
  destruct (Z.eqb_spec (ids_end b - geometry_end b) (cval b NARBS)) as [K6|]; cbn [negb]; [|apply Fl].
  right. right. eexists _, _. split; [reflexivity|]. split; [exact L9|]. split; [intros _; tauto|]. destruct (part_ids_present b); exact C8.
Qed.

Lemma extra_sound c pl : live c (ids_end b) -> (forall f, control_pos f <> None \/ extra_pos f <> None -> pl_cd pl f = control_value b f) ->
  section_ok (extra_connectivity c pl) (fun c' pl' => live c' (ids_end b + extra_nodes b) /\ pl' = pl).
Proof.
  intros L C. pose proof ord as (O1 & O2 & O3 & O4 & O5). unfold extra_connectivity. cbv zeta. rewrite !C by (first [left; discriminate|right; discriminate]). cbn [control_value].
  match goal with |- context [u64 ?x] => assert (X : x = extra_nodes b) end.
  { unfold extra_nodes, if_pos. nn NEL48. nn NEL20. nn NEL27. nn NEL21P. nn NEL15T. nn NEL20T. nn NEL40P. nn NEL64.
    assert (On : forall v k, 0 <= v -> (if 0 <? v then k * v else 0) = k * v) by (intros v k V; destruct (Z.ltb_spec 0 v); [reflexivity|]; replace v with 0 by lia; lia).
    rewrite !On by assumption. destruct (Z.ltb_spec (cval b NEL8) 0); [lia|]. destruct (0 <? cval b QUADR), (0 <? cval b CUBIC); rewrite ?andb_true_r, ?andb_false_r; rewrite ?On by assumption; lia. }
  rewrite X, sm by lia. destruct (skip_any c _ (extra_nodes b) (ids_end b + extra_nodes b) L) as (c' & Q & [(L' & _)|D]); [lia|lia|lia| |]; rewrite Q; cbn [bind].
  - rewrite (live_err b Er c' _ L'). right. right. eauto.
  - rewrite (dead_err b c' D). right. left. eexists _, _, _. reflexivity.
Qed.
Lemma adapted_sound c pl : live c (ids_end b + extra_nodes b) -> (forall f, control_pos f <> None \/ extra_pos f <> None -> pl_cd pl f = control_value b f) ->
  section_ok (adapted_parents c pl) (fun c' pl' => live c' (marker_pos b) /\ pl' = pl).
Proof.
  intros L C. pose proof ord as (O1 & O2 & O3 & O4 & O5). unfold adapted_parents. cbv zeta. rewrite !C by (left; discriminate). cbn [control_value]. nn NADAPT.
  assert (M : marker_pos b = ids_end b + extra_nodes b + 2 * cval b NADAPT) by reflexivity.
  destruct (Z.eqb_spec (cval b NADAPT) 0) as [Z0|Nz].
  - right. right. eexists _, _. split; [reflexivity|]. rewrite M, Z0, Z.add_0_r. auto.
  - rewrite (sm (2 * cval b NADAPT)) by lia.
    destruct (skip_any c _ (2 * cval b NADAPT) (marker_pos b) L) as (c' & Q & [(L' & _)|D]); [lia|lia|lia| |]; rewrite Q; cbn [bind].
    + rewrite (live_err b Er c' _ L'). right. right. eauto.
    + rewrite (dead_err b c' D). right. left. eexists _, _, _. reflexivity.
Qed.

(** The header. *)
Lemma skipb_any c pos n k : live c pos -> 0 <= k < 2 ^ 50 -> n = k * d_ws b -> exists c', skipb c (u64 n) = OK c' /\ ((live c' (pos + k) /\ below b (pos + k)) \/ dead c').
Proof.
  intros L K ->. pose proof (live_bound b So c pos L) as (Lb & Lb2). pose proof (tot b So) as Tt. unfold skipb, skip_bytes. rewrite (live_ws b c _ L).
  rewrite u64_id by (destruct ws48 as [W|W]; rewrite W; lia). rewrite Z.div_mul by (destruct ws48 as [W|W]; rewrite W; lia).
  destruct (skip_live b So c pos k L) as (c' & Q & R); [lia|destruct ws48 as [W|W]; rewrite W in *; lia|]. exists c'. split; [exact Q|].
  destruct (below_dec b (pos + k)) as [B|B]; [left; split; [apply (reach_live b); auto|exact B]|right; apply R; exact B].
Qed.
(** Every title block announces less than 2^40 entries (always true of 4-byte words). *)
Definition few_titles : Prop := forall i, has b i -> wd b i = 90001 \/ wd b i = 90002 \/ wd b i = 900100 -> wd b (i + 1) < 2 ^ 40.
Lemma few_titles_4 : d_ws b = 4 -> few_titles.
Proof. intros W i _ _. pose proof (wd_bound b So By (i + 1)) as X. rewrite W in X. change (256 ^ 4) with (2 ^ 32) in X. lia. Qed.
Lemma header_sound : few_titles -> forall fuel c pl pos t, live c pos ->
  header fuel c pl = OOF \/ section_ok (header fuel c pl) (fun c' pl' => pl_cd pl' = pl_cd pl /\ pl_err pl' = pl_err pl /\ pl_states pl' = pl_states pl /\ 0 < p_pos (snd c') /\ exists pos' t', blocks b pos t pos' t' /\ live c' pos').
Proof.
  intros Ft. induction fuel as [|fuel IH]; intros c pl pos t L; cbn [header]; [left; reflexivity|].
  assert (P0 : 0 <= pos) by apply L.
  assert (Fl : forall k c0 pl0 e0, section_ok (sfail c0 pl0 e0) k) by (intros k c0 pl0 e0; right; left; eexists _, _, _; reflexivity).
  assert (Du : forall (k0 : _ -> Prop) c0 k, dead c0 -> section_ok (bind (word c0) k) (fun c' pl' => k0 (c', pl'))) by (intros k0 c0 k D; left; rewrite (word_dead b c0 D); reflexivity).
  destruct (word_any c _ L) as [(H & c1 & Q1 & L1 & Pp)|(c1 & v & Q1 & D)]; rewrite Q1; cbn [bind]; [|right; rewrite (dead_err b c1 D); apply Fl].
  rewrite (live_ws b c1 _ L1), (live_err b Er c1 _ L1).
  assert (W0 : 0 < 72 / d_ws b /\ 0 < 80 / d_ws b /\ 72 = 72 / d_ws b * d_ws b /\ 80 = 80 / d_ws b * d_ws b) by (destruct ws48 as [W|W]; rewrite W; repeat split; reflexivity).
  destruct W0 as (W1 & W2 & W3 & W4).
  assert (B1 : 72 / d_ws b <= 18) by (destruct ws48 as [W|W]; rewrite W; [change (72 / 4) with 18|change (72 / 8) with 9]; lia).
  assert (B2 : 80 / d_ws b <= 20) by (destruct ws48 as [W|W]; rewrite W; [change (80 / 4) with 20|change (80 / 8) with 10]; lia).
  destruct (Z.eqb_spec (wd b pos) 90000) as [E|N0].
  { destruct (skipb_any c1 (pos + 1) 72 (72 / d_ws b) L1) as (c2 & Q2 & [(L2 & B)|D]); [lia|exact W3| |]; change (u64 72) with 72 in Q2; rewrite Q2; cbn [bind]; [|right; rewrite (dead_err b c2 D); apply Fl].
    rewrite (live_err b Er c2 _ L2). destruct (IH c2 pl _ t L2) as [X|[X|[X|(c' & pl' & X & K1 & K2 & K2' & K3 & pos' & t' & K4 & K5)]]]; [left; exact X|right; left; exact X|right; right; left; exact X|].
    right. right. right. exists c', pl'. split; [exact X|]. split; [exact K1|]. split; [exact K2|]. split; [exact K2'|]. split; [exact K3|]. exists pos', t'. split; [|exact K5]. eapply bl_head; eauto. }
  pose proof (wd_u64 b So By (pos + 1)) as (Nn & _).
  destruct (Z.eqb_spec (wd b pos) 90001) as [E|N1].
  { pose proof (Ft pos H ltac:(auto)) as Fb. destruct (word_any c1 _ L1) as [(H2 & c2 & Q2 & L2 & _)|(c2 & v & Q2 & D)]; rewrite Q2; cbn [bind]; [|right; rewrite (dead_err b c2 D); apply Fl].
    rewrite (live_err b Er c2 _ L2). replace (pos + 1 + 1) with (pos + 2) in L2 by lia. assert (Wc2 : cw c2 = pos + 2) by apply L2. rewrite Wc2. set (n := wd b (pos + 1)) in *.
    destruct (skipb_any c2 (pos + 2) ((d_ws b + 72) * n) (n * (1 + 72 / d_ws b)) L2) as (c3 & Q3 & [(L3 & B)|D]); [nia|rewrite W3 at 1; ring| |]; rewrite Q3; cbn [bind]; [|right; rewrite (dead_err b c3 D); apply Fl].
    rewrite (live_err b Er c3 _ L3). destruct (IH c3 (with_ptr pl K_PART_TITLES (pos + 2)) _ (pos + 2) L3) as [X|[X|[X|(c' & pl' & X & K1 & K2 & K2' & K3 & pos' & t' & K4 & K5)]]]; [left; exact X|right; left; exact X|right; right; left; exact X|].
    right. right. right. exists c', pl'. split; [exact X|]. split; [exact K1|]. split; [exact K2|]. split; [exact K2'|]. split; [exact K3|]. exists pos', t'. split; [|exact K5]. eapply bl_parts; eauto. }
  destruct (Z.eqb_spec (wd b pos) 90002) as [E|N2].
  { pose proof (Ft pos H ltac:(auto)) as Fb. destruct (word_any c1 _ L1) as [(H2 & c2 & Q2 & L2 & _)|(c2 & v & Q2 & D)]; rewrite Q2; cbn [bind]; [|right; rewrite (dead_err b c2 D); apply Fl].
    rewrite (live_err b Er c2 _ L2). replace (pos + 1 + 1) with (pos + 2) in L2 by lia. set (n := wd b (pos + 1)) in *.
    destruct (skipb_any c2 (pos + 2) ((d_ws b + 72) * n) (n * (1 + 72 / d_ws b)) L2) as (c3 & Q3 & [(L3 & B)|D]); [nia|rewrite W3 at 1; ring| |]; rewrite Q3; cbn [bind]; [|right; rewrite (dead_err b c3 D); apply Fl].
    rewrite (live_err b Er c3 _ L3). destruct (IH c3 pl _ t L3) as [X|[X|[X|(c' & pl' & X & K1 & K2 & K2' & K3 & pos' & t' & K4 & K5)]]]; [left; exact X|right; left; exact X|right; right; left; exact X|].
    right. right. right. exists c', pl'. split; [exact X|]. split; [exact K1|]. split; [exact K2|]. split; [exact K2'|]. split; [exact K3|]. exists pos', t'. split; [|exact K5]. eapply bl_contacts; eauto. }
  destruct (Z.eqb_spec (wd b pos) 900100) as [E|N3].
  { pose proof (Ft pos H ltac:(auto)) as Fb. destruct (word_any c1 _ L1) as [(H2 & c2 & Q2 & L2 & _)|(c2 & v & Q2 & D)]; rewrite Q2; cbn [bind]; [|right; rewrite (dead_err b c2 D); apply Fl].
    rewrite (live_err b Er c2 _ L2). replace (pos + 1 + 1) with (pos + 2) in L2 by lia. set (n := wd b (pos + 1)) in *.
    destruct (skipb_any c2 (pos + 2) (80 * n) (n * (80 / d_ws b)) L2) as (c3 & Q3 & [(L3 & B)|D]); [nia|rewrite W4 at 1; ring| |]; rewrite Q3; cbn [bind]; [|right; rewrite (dead_err b c3 D); apply Fl].
    rewrite (live_err b Er c3 _ L3). destruct (IH c3 pl _ t L3) as [X|[X|[X|(c' & pl' & X & K1 & K2 & K2' & K3 & pos' & t' & K4 & K5)]]]; [left; exact X|right; left; exact X|right; right; left; exact X|].
    right. right. right. exists c', pl'. split; [exact X|]. split; [exact K1|]. split; [exact K2|]. split; [exact K2'|]. split; [exact K3|]. exists pos', t'. split; [|exact K5]. eapply bl_lines; eauto. }
  destruct (is_eof (d_ws b) (wd b pos)) eqn:Ee; [|right; apply Fl].
  right. right. right. exists c1, pl. split; [reflexivity|]. split; [reflexivity|]. split; [reflexivity|]. split; [reflexivity|]. split; [exact Pp|]. exists (pos + 1), t. split; [apply bl_end; assumption|exact L1].
Qed.

(** The whole of d3plot_open, up to the states. *)
Lemma section_good (r : res (dbuf * dptr * plot * Z)) k (f : dbuf * dptr -> plot -> res plot) : section_ok r k ->
  good (do ' (c, pl, x) <- r; if x =? 0 then OK (with_buf pl (fst c)) else f c pl) -> exists c pl, r = OK (c, pl, 1) /\ k c pl /\ good (f c pl).
Proof.
  intros [->|[(c & pl & e & ->)|(c & pl & -> & K)]] G; cbn [bind Z.eqb] in G.
  - destruct (UB_bad G).
  - destruct G as (p & Q & E). injection Q as <-. discriminate E.
  - exists c, pl. auto.
Qed.
Lemma open_sound : good (open_buffer b) ->
  (wd b 11 = 1 \/ wd b 11 = 1001) /\ checked /\ cval b NDIM = 4 /\ (cval b EXTRA = 0 \/ 18 <= cval b EXTRA) /\ ids_ok b /\ has b (marker_pos b) /\ is_eof (d_ws b) (wd b (marker_pos b)) = true /\
  (few_titles -> cval b NCFDV1 <> 67108864 /\ exists hdr_end titles q, blocks b (marker_pos b + 1) 0 hdr_end titles /\ file_end b (hdr_end - 1) q true).
Proof.
  unfold open_buffer. pose proof ord as (O1 & O2 & O3 & O4 & O5).
  assert (L0 : exists c, seek b 0 = OK c /\ (live c 0 \/ dead c)).
  { destruct (Z.lt_ge_cases 0 (total b)).
    - destruct (seek_in b 0 So) as (p & Q & A & W); [lia|lia|]. rewrite Q. exists (b, p). split; [reflexivity|]. left. split; [reflexivity|]. split; [exact A|]. split; [exact W|lia].
    - rewrite (seek_out b 0 So) by lia. eexists. split; [reflexivity|]. right. eexists. reflexivity. }
  destruct L0 as (c0 & Q0 & L0). rewrite Q0. cbn [bind].
  assert (Sk : forall c pos n, (live c pos \/ dead c) -> 0 <= n < 100 -> pos + n <= 64 -> exists c', skip c n = OK c' /\ (live c' (pos + n) \/ dead c')).
  { intros c pos n [L|D] N M.
    - destruct (skip_any c pos n (pos + n) L) as (c' & Q & [(X & _)|X]); [lia|reflexivity|lia|eauto|eauto].
    - destruct (skip_dead b c n D) as (c' & Q & D'); [lia|]. eauto. }
  destruct (Sk c0 0 10 L0) as (c1 & Q1 & L1); [lia|lia|]. rewrite Q1. cbn [bind]. destruct (Sk c1 (0 + 10) 1 L1) as (c2 & Q2 & L2); [lia|lia|]. rewrite Q2. cbn [bind]. change (0 + 10 + 1) with 11 in L2.
  destruct L2 as [L2|D2]; [|intros G; exfalso; rewrite (word_dead b c2 D2) in G; exact (UB_bad G)].
  destruct (word_any c2 _ L2) as [(_ & c3 & Q3 & L3 & _)|(c3 & v & Q3 & D3)]; rewrite Q3; cbn [bind].
  2:{ intros G. exfalso. destruct (negb _); [exact (ear_bad _ _ _ G)|].
      assert (R0 : read_control c3 (pl_cd (with_ptr (start_plot b) K_RUN_TIME (cw c1))) = UB).
      { unfold read_control. rewrite (run_ops_read b); [reflexivity|exact D3|repeat constructor; cbn; lia|exact (or_intror (or_intror (or_intror (or_introl I))))]. }
      rewrite R0 in G. exact (UB_bad G). }
  change (11 + 1) with 12 in L3.
  destruct (Z.eqb_spec (if 1000 <? wd b 11 then wd b 11 - 1000 else wd b 11) 1) as [Ty|]; cbn [negb]; [|intros G; destruct (ear_bad _ _ _ G)].
  assert (Ty' : wd b 11 = 1 \/ wd b 11 = 1001) by (destruct (Z.ltb_spec 1000 (wd b 11)); lia). clear Ty.
  destruct (control_sound c3 (pl_cd (with_ptr (start_plot b) K_RUN_TIME (cw c1))) L3) as [X|[(c4 & cd & X & D4)|(c4 & cd & X & L4 & Ex & C4)]]; rewrite X; cbn [bind]; [intros G; destruct (UB_bad G)|intros G; rewrite (dead_err b c4 D4) in G; destruct (ear_bad _ _ _ G)|].
  rewrite (live_err b Er c4 _ L4). destruct (derive cd) as [[[cd' is] e]| |] eqn:Dv; cbn [bind]; try (intros (? & G & _); discriminate G).
  destruct e as [e|]; [intros G; destruct (ear_bad _ _ _ G)|]. destruct (derive_sound cd cd' is C4 Dv) as (Ck & Pk & C5). clear Dv X C4.
  set (pl0 := with_istrn _ _). assert (C6 : forall f, control_pos f <> None \/ extra_pos f <> None -> pl_cd pl0 f = control_value b f) by exact C5.
  assert (Pk0 : pl_cd pl0 PACKED = if cval b NDIM =? 3 then 1 else 0) by exact Pk. assert (S0 : pl_err pl0 = None) by reflexivity. clearbody pl0. clear C5 Pk. unfold open_sections. intros G.
  assert (N3 : pl_cd pl0 NDIM = 3) by (rewrite C6 by (left; discriminate); reflexivity).
  destruct (section_good _ _ _ (geometry_sound c4 pl0 L4 N3 C6) G) as (c5 & pl1 & _ & (L5 & P0 & C7) & G1). clear G.
  assert (Nd : cval b NDIM = 4) by (rewrite Pk0 in P0; destruct (ck_ndim Ck) as [X|X]; [rewrite X in P0; discriminate P0|exact X]). rewrite <- C7 in C6.
  destruct (section_good _ _ _ (ids_sound c5 pl1 L5 C6) G1) as (c6 & pl2 & _ & (L6 & Ids & C8) & G2). clear G1.
  destruct (section_good _ _ _ (extra_sound c6 pl2 L6 C8) G2) as (c7 & pl3 & _ & (L7 & ->) & G3). clear G2.
  destruct (section_good _ _ _ (adapted_sound c7 pl2 L7 C8) G3) as (c8 & pl4 & _ & (L8 & ->) & G4). clear G3.
  unfold open_tail in G4. destruct (word_any c8 _ L8) as [(Hm & c9 & Q9 & L9 & _)|(c9 & v & Q9 & D)]; rewrite Q9 in G4; cbn [bind] in G4; [|exfalso; rewrite (dead_err b c9 D) in G4; exact (UB_bad G4)].
  rewrite (live_err b Er c9 _ L9), (live_ws b c9 _ L9) in G4. destruct (is_eof (d_ws b) (wd b (marker_pos b))) eqn:Eo; cbn [negb] in G4; [|destruct (ear_bad _ _ _ G4)].
  split; [exact Ty'|]. split; [exact Ck|]. split; [exact Nd|]. split; [exact Ex|]. split; [exact Ids|]. split; [exact Hm|]. split; [reflexivity|]. intros Ft.
  destruct (header_sound Ft (loop_fuel (fst c9)) c9 pl2 _ 0 L9) as [X|Hs]; [exfalso; rewrite X in G4; destruct G4 as (? & G4 & _); discriminate G4|].
  destruct (section_good _ _ (fun c pl => if pl_cd pl NCFDV1 =? 67108864 then error_and_return c pl P_extra_types else
    do ' (b, p, ok) <- next_file (fst c) (snd c); if negb ok then error_and_return (b, p) pl P_few_files else if err (b, p) then error_and_return (b, p) pl P_next_file else state_loop (loop_fuel b) (b, p) pl) Hs) as (c10 & pl5 & _ & (K1 & _ & _ & Pp & hdr_end & t' & Bl & L10) & G5); [exact G4|].
  cbv beta in G5. rewrite K1, C8 in G5 by (left; discriminate). cbn [control_value] in G5.
  destruct (Z.eqb_spec (cval b NCFDV1) 67108864) as [X|Nc]; [destruct (ear_bad _ _ _ G5)|]. split; [exact Nc|]. exists hdr_end, t'.
  assert (Hl : has b (hdr_end - 1)).
  { clear - Bl. remember (marker_pos b + 1) as ps eqn:E. clear E. induction Bl; try assumption. replace (pos + 1 - 1) with pos by lia. assumption. }
  assert (Fe : exists q more, file_end b (hdr_end - 1) q more).
  { clear - Hl So Al. destruct Hl as (H0 & H1). pose proof (ws_pos b So) as Ws. unfold total, all_bytes in H1. set (x := (hdr_end - 1) * d_ws b) in *. assert (X0 : 0 <= x) by (unfold x; nia). assert (X1 : x < Z.of_nat (length (concat (map f_bytes (d_files b))))) by (unfold x; lia).
    assert (Sp : exists pre f post, d_files b = pre ++ f :: post /\ Z.of_nat (length (concat (map f_bytes pre))) <= x < Z.of_nat (length (concat (map f_bytes pre))) + Z.of_nat (length (f_bytes f))).
    { clearbody x. clear - X0 X1. revert x X0 X1. induction (d_files b) as [|f l IH]; intros x X0 X1; [cbn in X1; lia|]. cbn [map concat] in X1. rewrite app_length in X1.
      destruct (Z.lt_ge_cases x (Z.of_nat (length (f_bytes f)))) as [Lt|Ge].
      - exists [], f, l. split; [reflexivity|]. cbn. lia.
      - destruct (IH (x - Z.of_nat (length (f_bytes f)))) as (pre & g & post & E & Hx); [lia|lia|]. exists (f :: pre), g, post. split; [rewrite E; reflexivity|]. cbn [map concat]. rewrite app_length. lia. }
    destruct Sp as (pre & f & post & E & Hx). destruct (good_in b pre f post So E) as (Gs & _).
    assert (Dv : (d_ws b | Z.of_nat (length (concat (map f_bytes pre))) + f_size f)).
    { unfold aligned in Al. destruct So as (F & _). rewrite E in Al, F. apply Forall_app in Al as (Al1 & Al2). apply Forall_app in F as (F1 & _). inversion Al2; subst. apply Z.divide_add_r; [|assumption].
      clear - Al1 F1. induction pre as [|g pre IH]; [apply Z.divide_0_r|]. inversion Al1; inversion F1 as [|? ? (Fg & _) Fr]; subst. cbn. rewrite app_length, Nat2Z.inj_add. apply Z.divide_add_r; auto. rewrite <- Fg. assumption. }
    destruct Dv as (q & Hq). exists q, (negb match post with [] => true | _ => false end). exists pre, f, post. split; [exact E|]. split; [rewrite Gs; exact Hx|]. split; [lia|reflexivity]. }
  destruct Fe as (q & more & Fe). exists q. split; [exact Bl|]. replace hdr_end with (hdr_end - 1 + 1) in L10 by lia.
  destruct (next_file_live b So Al c10 (hdr_end - 1) q more L10 Pp Fe) as (c11 & Q11 & _). rewrite Q11 in G5. cbn [bind] in G5. destruct more; [exact Fe|]. cbn [negb] in G5. destruct (ear_bad _ _ _ G5).
Qed.
End Sound.
