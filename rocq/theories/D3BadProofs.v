(** * Plots d3plot_open cannot handle *)
From Verif Require Import CBase CBaseFacts BinModel D3BufModel D3BufSpec D3BufProofs D3Model D3Spec D3CurProofs D3OpenProofs D3SectProofs D3StateProofs.
Open Scope Z_scope.

Section Short.
Context (b : dbuf) (So : sound_family b) (Al : aligned b) (Er : d_err b = None) (By : bytes_ok b).
Notation live := (live b).
Notation dead := (dead b).

Lemma close_dead c pl e : dead c -> error_and_return c pl e = UB.
Proof. intros (x & ->). reflexivity. Qed.
Lemma run_ops_dead : forall os c cd, dead c -> Forall (fun o => match o with SK n => 0 <= n < 2 ^ 64 | _ => True end) os ->
  run_ops c cd os = UB \/ exists c' cd', run_ops c cd os = OK (c', cd') /\ dead c'.
Proof.
  induction os as [|o r IH]; intros c cd D F; cbn [run_ops]; [right; eauto|]. inversion F as [|? ? F1 F2]; subst. destruct o as [f|f|n]; cbn [run_op].
  - left. rewrite (word_dead b c D). reflexivity.
  - left. rewrite (word_dead b c D). reflexivity.
  - destruct (skip_dead b c n D F1) as (c' & Q & D'). rewrite Q. cbn [bind]. apply IH; auto.
Qed.
Definition small_op (o : op) : Prop := match o with SK n => 0 <= n < 2 ^ 32 | _ => True end.
Lemma small_run os : Forall small_op os -> Forall (fun o => match o with SK n => 0 <= n < 2 ^ 64 | _ => True end) os.
Proof. apply Forall_impl. intros [ | |n]; cbn; auto. lia. Qed.
Lemma oplen_nonneg os : Forall small_op os -> 0 <= oplen os.
Proof. induction 1 as [|o r F1 F2 IH]; cbn [oplen]; [lia|]. destruct o; cbn in F1; lia. Qed.
Fixpoint reading (os : list op) : Prop := match os with [] => False | SK _ :: r => False \/ reading r | _ :: r => True \/ reading r end.
Lemma run_ops_read : forall os c cd, dead c -> Forall small_op os -> reading os -> run_ops c cd os = UB.
Proof.
  induction os as [|o r IH]; intros c cd D F Rd; cbn [run_ops]; [destruct Rd|]. inversion F as [|? ? F1 F2]; subst. destruct o as [f|f|n]; cbn [run_op].
  - rewrite (word_dead b c D). reflexivity.
  - rewrite (word_dead b c D). reflexivity.
  - cbn in F1, Rd. destruct (skip_dead b c n D) as (c' & Q & D'); [lia|]. rewrite Q. cbn [bind]. apply IH; tauto.
Qed.
(** Either the whole list was executed, or the data ends before. *)
Lemma run_ops_any : forall os c cd pos, live c pos -> Forall small_op os ->
  run_ops c cd os = UB \/ (exists c' cd', run_ops c cd os = OK (c', cd') /\ dead c') \/
  (exists c', run_ops c cd os = OK (c', interp b pos os cd) /\ live c' (pos + oplen os) /\ (forall r n, os = r ++ [SK n] -> below b (pos + oplen os))).
Proof.
  pose proof (ws_pos b So) as Ws. induction os as [|o r IH]; intros c cd pos L F; cbn [run_ops interp oplen].
  - right. right. exists c. rewrite Z.add_0_r. split; [reflexivity|]. split; [exact L|]. intros [|x r] n X; discriminate X.
  - inversion F as [|? ? F1 F2]; subst.
    assert (Rest : forall c1 cd1 p, live c1 p -> (forall n, o = SK n -> r = [] -> below b p) -> 
      run_ops c1 cd1 r = UB \/ (exists c' cd', run_ops c1 cd1 r = OK (c', cd') /\ dead c') \/
      (exists c', run_ops c1 cd1 r = OK (c', interp b p r cd1) /\ live c' (p + oplen r) /\ (forall r' n, o :: r = r' ++ [SK n] -> below b (p + oplen r)))).
    { intros c1 cd1 p L1 Bo. destruct (IH c1 cd1 p L1 F2) as [X|[X|(c' & X1 & X2 & X3)]]; [left; exact X|right; left; exact X|]. right. right. exists c'. split; [exact X1|]. split; [exact X2|].
      intros r' n E. destruct r' as [|y r']; [injection E as -> ->; cbn [oplen]; rewrite Z.add_0_r; eauto|]. injection E as _ E. eapply X3; eauto. }
    destruct o as [f|f|n]; cbn [run_op].
    + destruct (Z.le_gt_cases ((pos + 1) * d_ws b) (total b)) as [Hs|Hs].
      * destruct (word_live b So Al Er c pos L) as (c1 & Q & L1 & _); [split; [apply L|exact Hs]|]. rewrite Q. cbn [bind]. rewrite Z.add_assoc. apply Rest; [exact L1|discriminate].
      * destruct (word_out b So Er c pos L) as (c1 & v & Q & D); [unfold has; lia|]. rewrite Q. cbn [bind]. destruct (run_ops_dead r c1 (upd cd f v) D (small_run r F2)); auto.
    + destruct (Z.le_gt_cases ((pos + 1) * d_ws b) (total b)) as [Hs|Hs].
      * destruct (word_live b So Al Er c pos L) as (c1 & Q & L1 & _); [split; [apply L|exact Hs]|]. rewrite Q. cbn [bind]. rewrite (live_ws b c1 _ L1), Z.add_assoc. apply Rest; [exact L1|discriminate].
      * destruct (word_out b So Er c pos L) as (c1 & v & Q & D); [unfold has; lia|]. rewrite Q. cbn [bind]. destruct (run_ops_dead r c1 (upd cd f (signed (d_ws (fst c1)) v)) D (small_run r F2)); auto.
    + pose proof (live_bound b So c pos L) as (Lb & Lb2). cbn in F1. destruct (skip_live b So c pos n L) as (c1 & Q & R1); [lia|pose proof (tot b So); nia|]. rewrite Q. cbn [bind].
      destruct (below_dec b (pos + n)) as [Bl|Bl].
      * rewrite Z.add_assoc. apply Rest; [apply (reach_live b); auto|intros _ _ _; exact Bl].
      * assert (D : dead c1) by (apply R1; exact Bl). destruct (run_ops_dead r c1 cd D (small_run r F2)); auto.
Qed.

Lemma no_extra_ops c cd : dead c -> run_ops c cd extra_ops = UB.
Proof. intros D. apply run_ops_read; [exact D|repeat constructor|left; exact I]. Qed.

(** The control words are not complete, or EXTRA announces less than 18 words. *)
Lemma control_bad c cd0 : live c 12 -> ~ below b 64 \/ 0 < wd b 57 < 18 ->
  read_control c cd0 = UB \/ exists c' cd', read_control c cd0 = OK (c', cd') /\ dead c'.
Proof.
  intros L Bad. unfold read_control.
  destruct (run_ops_any control_ops c cd0 12 L) as [Q|[(c1 & cd1 & Q & D)|(c1 & Q & L1 & Bl)]]; [repeat constructor; cbn; lia|rewrite Q; left; reflexivity| |].
  - rewrite Q. cbn [bind]. destruct (0 <? cd1 EXTRA).
    + left. rewrite (no_extra_ops c1 cd1 D). reflexivity.
    + right. eauto.
  - rewrite Q. cbn [bind]. change (12 + oplen control_ops) with 64 in *. specialize (Bl (removelast control_ops) 6 eq_refl).
    destruct Bad as [Bad|Bad]; [contradiction|]. change (interp b 12 control_ops cd0 EXTRA) with (wd b 57). assert (0 <? wd b 57 = true) as -> by lia.
    destruct (run_ops_any extra_ops c1 (interp b 12 control_ops cd0) 64 L1) as [Q2|[(c2 & cd2 & Q2 & D)|(c2 & Q2 & L2 & _)]]; [repeat constructor|rewrite Q2; left; reflexivity| |].
    + rewrite Q2. cbn [bind]. destruct (skip_dead b c2 (u64 (cd2 EXTRA - 18)) D) as (c3 & Q3 & D3); [apply Z.mod_pos_bound; lia|]. rewrite Q3. cbn [bind].
      destruct (_ || _); [left; rewrite (word_dead b c3 D3); reflexivity|right; eauto].
    + rewrite Q2. cbn [bind]. change (64 + oplen extra_ops) with 82 in L2. set (cd2 := interp b 64 extra_ops _). assert (Ex : cd2 EXTRA = wd b 57) by reflexivity. clearbody cd2. rewrite Ex.
      assert (X : exists c3, skip c2 (u64 (wd b 57 - 18)) = OK c3 /\ dead c3).
      { unfold skip, skip_words. destruct L2 as (E2 & A & W & _). unfold cw in W. rewrite W, E2.
        assert (U : u64 (wd b 57 - 18) = 2 ^ 64 + (wd b 57 - 18)) by (unfold u64; symmetry; apply Z.mod_unique with (q := -1); lia). rewrite U.
        rewrite (u64_id (ULONG_MAX - _)) by (unfold ULONG_MAX; lia). assert (ULONG_MAX - (2 ^ 64 + (wd b 57 - 18)) <=? 82 = true) as -> by (unfold ULONG_MAX; lia).
        rewrite (pointer_close_ok b _ _ A). destruct A as (pre & f & post & _ & -> & _). cbn [bind]. eexists. split; [reflexivity|]. exists E_bounds. reflexivity. }
      destruct X as (c3 & Q3 & D3). rewrite Q3. cbn [bind]. destruct (_ || _); [left; rewrite (word_dead b c3 D3); reflexivity|right; eauto].
Qed.

Lemma open_bad : (has b 11 -> wd b 11 = 1 \/ wd b 11 = 1001) -> ~ below b 64 \/ 0 < wd b 57 < 18 -> open_buffer b = UB.
Proof.
  intros Ty Bad. unfold open_buffer. pose proof (ws_pos b So) as Ws.
  assert (L0 : exists c, seek b 0 = OK c /\ (live c 0 \/ dead c)).
  { destruct (Z.lt_ge_cases 0 (total b)).
    - destruct (seek_in b 0 So) as (p & Q & A & W); [lia|lia|]. rewrite Q. exists (b, p). split; [reflexivity|]. left. split; [reflexivity|]. split; [exact A|]. split; [exact W|lia].
    - rewrite (seek_out b 0 So) by lia. eexists. split; [reflexivity|]. right. eexists. reflexivity. }
  assert (Sk : forall c pos n, (live c pos \/ dead c) -> 0 <= n < 100 -> exists c', skip c n = OK c' /\ (live c' (pos + n) \/ dead c')).
  { intros c pos n [L|D] N.
    - pose proof (live_bound b So c pos L). destruct (skip_live b So c pos n L) as (c' & Q & R1); [lia|pose proof (tot b So); nia|]. exists c'. split; [exact Q|].
      destruct (below_dec b (pos + n)) as [X|X]; [left; apply (reach_live b); auto|right; apply R1; exact X].
    - destruct (skip_dead b c n D) as (c' & Q & D'); [lia|]. eauto. }
  destruct L0 as (c0 & Q0 & L0). rewrite Q0. cbn [bind]. destruct (Sk c0 0 10 L0) as (c1 & Q1 & L1); [lia|]. rewrite Q1. cbn [bind].
  destruct (Sk c1 (0 + 10) 1 L1) as (c2 & Q2 & L2); [lia|]. rewrite Q2. cbn [bind]. change (0 + 10 + 1) with 11 in L2.
  destruct L2 as [L2|D2]; [|rewrite (word_dead b c2 D2); reflexivity].
  destruct (Z.le_gt_cases (12 * d_ws b) (total b)) as [Hs|Hs].
  - assert (H11 : has b 11) by (split; lia). destruct (word_live b So Al Er c2 11 L2 H11) as (c3 & Q3 & L3 & _). rewrite Q3. cbn [bind]. change (11 + 1) with 12 in L3.
    assert (Ft : ((if 1000 <? wd b 11 then wd b 11 - 1000 else wd b 11) =? 1) = true) by (destruct (Ty H11) as [-> | ->]; reflexivity). rewrite Ft. cbn [negb].
    destruct (control_bad c3 (pl_cd (with_ptr (start_plot b) K_RUN_TIME (cw c1))) L3 Bad) as [Q|(c4 & cd4 & Q & D)]; rewrite Q; [reflexivity|]. cbn [bind]. rewrite (dead_err b c4 D). apply close_dead. exact D.
  - destruct (word_out b So Er c2 11 L2) as (c3 & v & Q & D); [unfold has; lia|]. rewrite Q. cbn [bind]. destruct (negb _); [apply close_dead; exact D|].
    assert (R0 : read_control c3 (pl_cd (with_ptr (start_plot b) K_RUN_TIME (cw c1))) = UB).
    { unfold read_control. rewrite run_ops_read; [reflexivity|exact D|repeat constructor; cbn; lia|exact (or_intror (or_intror (or_intror (or_introl I))))]. }
    rewrite R0. reflexivity.
Qed.
End Short.

Section Bad.
Context (b : dbuf) (Su : supported b).
Let So := su_sound b Su.
Let Al := su_aligned b Su.
Let Er := su_err b Su.
Let By := su_bytes b Su.
Notation live := (live b).
Ltac nn f := pose proof (nonneg b Su f ltac:(discriminate) ltac:(discriminate)).

(** There is only one file. *)
Lemma open_single titles hdr_end q : blocks b (marker_pos b + 1) 0 hdr_end titles -> file_end b (hdr_end - 1) q false -> open_buffer b = UB.
Proof.
  intros Bl Fe. destruct (open_head b Su titles hdr_end Bl) as (c & pl & _ & L & Pp & ->). replace hdr_end with (hdr_end - 1 + 1) in L by lia.
  destruct (next_file_live b So Al c (hdr_end - 1) q false L Pp Fe) as (c' & Q & E & _ & Cl). rewrite Q. cbn [bind negb]. unfold error_and_return. cbn [fst snd]. rewrite (Cl eq_refl). reflexivity.
Qed.

Lemma global_sum : 0 <= cval b NUMMAT8 + cval b NUMMAT2 + cval b NUMMAT4 + cval b NUMMATT + numrbs b.
Proof. nn NUMMAT8. nn NUMMAT2. nn NUMMAT4. nn NUMMATT. pose proof (numrbs_nonneg b Su). lia. Qed.

Lemma skip_wrap c pos n d : live c pos -> 0 < d <= pos -> n = 2 ^ 64 - d -> exists c', skip c n = OK c' /\ dead b c'.
Proof.
  intros L D ->. pose proof (live_bound b So c pos L) as (_ & Lb). destruct L as (E & A & W & _). unfold skip, skip_words. unfold cw in W. rewrite W, E.
  rewrite u64_id by (unfold ULONG_MAX; lia). assert (ULONG_MAX - (2 ^ 64 - d) <=? pos = true) as -> by (unfold ULONG_MAX; lia).
  rewrite (pointer_close_ok b _ _ A). destruct A as (pre & f & post & _ & -> & _). cbn [bind]. eexists. split; [reflexivity|]. exists E_bounds. reflexivity.
Qed.

(** The global variables are announced too small: the states are dropped silently. *)
Lemma state_small_global c pl pos : live c pos -> has b pos -> is_eof (d_ws b) (wd b pos) = false -> (forall f, pl_cd pl f = control_value b f) ->
  cval b NGLBV < global_minimum b < 2 ^ 60 -> exists c', read_state c pl = OK (c', pl, 0) /\ fst c' = b.
Proof.
  intros L H E C (G1 & G2). pose proof global_sum as Gs. unfold global_minimum in *. pose proof (live_bound b So c pos L) as (Lb & Lb2). assert (P0 : 0 <= pos) by apply L. pose proof (tot b So) as Tt.
  nn NUMMAT8. nn NUMMAT2. nn NUMMAT4. nn NUMMATT. pose proof (numrbs_nonneg b Su) as Nr. nn NGLBV.
  unfold read_state. destruct (word_live b So Al Er c pos L H) as (c1 & Q & L1 & _). rewrite Q. cbn [bind].
  rewrite (live_err b Er c1 _ L1), (live_ws b c1 _ L1), E. cbv zeta. rewrite !C. cbn [control_value].
  set (m8 := cval b NUMMAT8) in *. set (m2 := cval b NUMMAT2) in *. set (m4 := cval b NUMMAT4) in *. set (mt := cval b NUMMATT) in *. set (mr := numrbs b) in *.
  match goal with |- context [skips c1 ?l] => assert (Sm : sum l = 6 + 7 * (m8 + m2 + m4 + mt + mr)) by (cbn [sum app]; lia); assert (Fl : Forall (fun n => 0 <= n) l) by (repeat constructor; assumption || lia) end.
  match goal with |- context [skips c1 ?l] => destruct (skips_live b So l c1 (pos + 1) L1) as (c2 & Q2 & R2); [discriminate|exact Fl|rewrite Sm; destruct (ws_cases b Su) as [Wc|Wc]; rewrite Wc in *; lia|] end.
  rewrite Q2. cbn [bind]. rewrite Sm in R2. clear Q2 Sm Fl.
  assert (Quiet : forall c', dead b c' -> exists c2, quiet c' pl = OK (c2, pl, 0) /\ fst c2 = b) by (intros c' D; eexists; split; [reflexivity|]; cbn [fst]; apply (dead_clear b Su); exact D).
  destruct (below_dec b (pos + 1 + (6 + 7 * (m8 + m2 + m4 + mt + mr)))) as [B2|B2]; [|rewrite (proj2 (reach_err b Er c2 _ R2) B2); apply Quiet; apply R2; exact B2].
  apply (reach_live b) in R2; auto. rewrite (live_err b Er c2 _ R2).
  destruct (skip_wrap c2 _ (u64 (cval b NGLBV - 6 - 7 * (m8 + m2 + m4 + mt + mr))) (6 + 7 * (m8 + m2 + m4 + mt + mr) - cval b NGLBV) R2) as (c3 & Q3 & D3); [lia| |].
  { unfold u64. symmetry. apply Z.mod_unique with (q := -1); lia. }
  rewrite Q3. cbn [bind]. rewrite (dead_err b c3 D3). apply Quiet. exact D3.
Qed.
Lemma open_small_global titles hdr_end q : blocks b (marker_pos b + 1) 0 hdr_end titles -> file_end b (hdr_end - 1) q true -> has b q -> is_eof (d_ws b) (wd b q) = false ->
  cval b NGLBV < global_minimum b < 2 ^ 60 -> exists pl, open_buffer b = OK pl /\ pl_err pl = None /\ pl_states pl = [].
Proof.
  intros Bl Fe H E G. destruct (open_head b Su titles hdr_end Bl) as (c & pl & (C & _ & E3 & S3 & _) & L & Pp & ->). replace hdr_end with (hdr_end - 1 + 1) in L by lia.
  destruct (next_file_live b So Al c (hdr_end - 1) q true L Pp Fe) as (c' & Q & Eb & L' & _). rewrite Q. cbn [bind negb]. specialize (L' eq_refl).
  rewrite <- (surjective_pairing c'). rewrite (live_err b Er c' _ L'). unfold loop_fuel. cbn [state_loop].
  destruct (state_small_global c' pl q L' H E C G) as (c2 & Q2 & _). rewrite Q2. cbn [bind Z.eqb]. eexists. split; [reflexivity|]. split; [exact E3|exact S3].
Qed.

(** IU, IV, IA that are not 0 or 1: the plot is rejected. *)
Lemma flag01 v : flag v = 0 \/ flag v = 1.
Proof. unfold flag. destruct (v =? 0); auto. Qed.
Lemma state_bad_flags c pl pos : live c pos -> has b pos -> is_eof (d_ws b) (wd b pos) = false -> (forall f, pl_cd pl f = control_value b f) ->
  global_minimum b <= cval b NGLBV -> s_therm b < 2 ^ 60 -> below b (pos + s_therm b) ->
  3 * (cval b IU + cval b IV + cval b IA) * cval b NUMNP < 2 ^ 64 -> 3 * (cval b IU + cval b IV + cval b IA) * cval b NUMNP <> s_therm b - s_coords b ->
  exists c' pl', read_state c pl = OK (c', fail pl' P_nodedata, 0) /\ pl_states pl' = pl_states pl.
Proof.
  intros L H E C Gl T6 Bt U Ne. pose proof global_sum as Gs. unfold global_minimum in *. pose proof (live_bound b So c pos L) as (Lb & Lb2). assert (P0 : 0 <= pos) by apply L. pose proof (tot b So) as Tt.
  nn NUMMAT8. nn NUMMAT2. nn NUMMAT4. nn NUMMATT. pose proof (numrbs_nonneg b Su) as Nr. nn NGLBV. nn NUMNP. nn IU. nn IV. nn IA.
  assert (Sc : s_coords b = 1 + cval b NGLBV) by reflexivity.
  assert (Ev : s_vel b = s_coords b + 3 * cval b NUMNP * flag (cval b IU)) by reflexivity. assert (Ea : s_acc b = s_vel b + 3 * cval b NUMNP * flag (cval b IV)) by reflexivity.
  assert (Et : s_therm b = s_acc b + 3 * cval b NUMNP * flag (cval b IA)) by reflexivity.
  assert (Nf : forall v, 0 <= 3 * cval b NUMNP * flag v) by (intros v; destruct (flag01 v) as [X|X]; rewrite X; lia).
  pose proof (Nf (cval b IU)) as T1. pose proof (Nf (cval b IV)) as T2. pose proof (Nf (cval b IA)) as T3.
  assert (Fit : forall p, p <= pos + s_therm b -> p * d_ws b < 2 ^ 64) by (intros p Hp; destruct (ws_cases b Su) as [Wc|Wc]; rewrite Wc in *; lia).
  assert (Bl : forall p, p <= pos + s_therm b -> below b p) by (intros p Hp; eapply (below_le b Su); eauto).
  unfold read_state. destruct (word_live b So Al Er c pos L H) as (c1 & Q & L1 & _). rewrite Q. cbn [bind].
  rewrite (live_err b Er c1 _ L1), (live_ws b c1 _ L1), E. cbv zeta. rewrite !C. cbn [control_value].
  assert (W0 : cw c = pos) by apply L. assert (W1 : cw c1 = pos + 1) by apply L1. rewrite W0, W1.
  set (m8 := cval b NUMMAT8) in *. set (m2 := cval b NUMMAT2) in *. set (m4 := cval b NUMMAT4) in *. set (mt := cval b NUMMATT) in *. set (mr := numrbs b) in *.
  match goal with |- context [skips c1 ?l] => assert (Sm : sum l = 6 + 7 * (m8 + m2 + m4 + mt + mr)) by (cbn [sum app]; lia); assert (Fl : Forall (fun n => 0 <= n) l) by (repeat constructor; assumption || lia) end.
  match goal with |- context [skips c1 ?l] => destruct (skips_live b So l c1 (pos + 1) L1) as (c2 & Q2 & R2); [discriminate|exact Fl|rewrite Sm; apply Fit; lia|] end.
  rewrite Q2. cbn [bind]. rewrite Sm in R2. clear Q2 Sm Fl. apply (reach_live b) in R2; [|apply Bl; lia]. rewrite (live_err b Er c2 _ R2).
  rewrite (u64_id (cval b NGLBV - 6 - 7 * _)) by lia.
  destruct (skip_live b So c2 _ (cval b NGLBV - 6 - 7 * (m8 + m2 + m4 + mt + mr)) R2) as (c3 & Q3 & R3); [lia|apply Fit; lia|]. rewrite Q3. cbn [bind]. clear Q3.
  replace (pos + 1 + (6 + 7 * (m8 + m2 + m4 + mt + mr)) + (cval b NGLBV - 6 - 7 * (m8 + m2 + m4 + mt + mr))) with (pos + s_coords b) in R3 by lia.
  assert (B3 : below b (pos + s_coords b)) by (apply Bl; lia). pose proof (reach_live b c3 _ R3 B3) as L3. rewrite (live_err b Er c3 _ L3). assert (W3 : cw c3 = pos + s_coords b) by apply L3. rewrite !W3.
  rewrite (u64_id (pos + s_coords b - (pos + 1))) by lia. replace (pos + s_coords b - (pos + 1)) with (cval b NGLBV) by lia. rewrite Z.eqb_refl. cbn [negb].
  rewrite (su_zero b Su IT) by (cbn; tauto). change (nth_digit 0 0) with (OK 0). change (nth_digit 0 1) with (OK 0). cbn [bind Z.ltb Z.compare Z.eqb].
  destruct (vec_reach b Su pos c3 pl IU K_STATE_NODE_COORDS _ (cval b IU) (cval b NUMNP) R3) as (c4 & Q4 & R4); try (rewrite C; reflexivity); try lia; [apply Fit; lia|].
  rewrite Q4. cbn [bind]. clear Q4. rewrite <- Z.add_assoc, <- Ev in R4. rewrite W3.
  set (pl1 := if cval b IU =? 0 then pl else _) in *.
  assert (M1 : moved pl pl1) by (unfold pl1; destruct (cval b IU =? 0); [apply moved_refl|apply moved_set; reflexivity]).
  assert (C1 : forall f, pl_cd pl1 f = control_value b f) by (intros f; destruct M1 as (_ & -> & _); apply C).
  destruct (vec_reach b Su pos c4 pl1 IV K_STATE_NODE_VEL _ (cval b IV) (cval b NUMNP) R4) as (c5 & Q5 & R5); try (rewrite C1; reflexivity); try lia; [apply Fit; lia|].
  rewrite Q5. cbn [bind]. clear Q5. rewrite <- Z.add_assoc, <- Ea in R5.
  set (pl2 := if cval b IV =? 0 then pl1 else _) in *.
  assert (M2 : moved pl1 pl2) by (unfold pl2; destruct (cval b IV =? 0); [apply moved_refl|apply moved_set; reflexivity]).
  assert (C2 : forall f, pl_cd pl2 f = control_value b f) by (intros f; destruct M2 as (_ & -> & _); apply C1).
  destruct (vec_reach b Su pos c5 pl2 IA K_STATE_NODE_ACC _ (cval b IA) (cval b NUMNP) R5) as (c6 & Q6 & R6); try (rewrite C2; reflexivity); try lia; [apply Fit; lia|].
  rewrite Q6. cbn [bind]. clear Q6. rewrite <- Z.add_assoc, <- Et in R6.
  set (pl3 := if cval b IA =? 0 then pl2 else _) in *.
  assert (M3 : moved pl2 pl3) by (unfold pl3; destruct (cval b IA =? 0); [apply moved_refl|apply moved_set; reflexivity]).
  assert (M03 : moved pl pl3) by (eapply moved_trans; [exact M1|]; eapply moved_trans; eauto).
  pose proof (reach_live b c6 _ R6 Bt) as L6. rewrite (live_err b Er c6 _ L6). assert (W6 : cw c6 = pos + s_therm b) by apply L6. rewrite W6.
  replace (pos + s_therm b - (pos + s_coords b)) with (s_therm b - s_coords b) by lia. rewrite (u64_id (s_therm b - s_coords b)) by lia.
  replace ((0 + 0 + 0 + 3 * (cval b IU + cval b IV + cval b IA)) * cval b NUMNP) with (3 * (cval b IU + cval b IV + cval b IA) * cval b NUMNP) by ring.
  rewrite (u64_id (3 * _ * _)) by nia. destruct (Z.eqb_spec (s_therm b - s_coords b) (3 * (cval b IU + cval b IV + cval b IA) * cval b NUMNP)) as [X|_]; [congruence|]. cbn [negb].
  eexists _, _. split; [reflexivity|]. apply M03.
Qed.
Lemma open_bad_flags titles hdr_end q : blocks b (marker_pos b + 1) 0 hdr_end titles -> file_end b (hdr_end - 1) q true -> has b q -> is_eof (d_ws b) (wd b q) = false ->
  global_minimum b <= cval b NGLBV -> s_therm b < 2 ^ 60 -> below b (q + s_therm b) ->
  3 * (cval b IU + cval b IV + cval b IA) * cval b NUMNP < 2 ^ 64 -> 3 * (cval b IU + cval b IV + cval b IA) * cval b NUMNP <> s_therm b - s_coords b ->
  exists pl, open_buffer b = OK pl /\ pl_err pl = Some P_nodedata.
Proof.
  intros Bl Fe H E G1 G2 G3 G4 G5. destruct (open_head b Su titles hdr_end Bl) as (c & pl & (C & _ & E3 & S3 & _) & L & Pp & ->). replace hdr_end with (hdr_end - 1 + 1) in L by lia.
  destruct (next_file_live b So Al c (hdr_end - 1) q true L Pp Fe) as (c' & Q & Eb & L' & _). rewrite Q. cbn [bind negb]. specialize (L' eq_refl).
  rewrite <- (surjective_pairing c'). rewrite (live_err b Er c' _ L'). unfold loop_fuel. cbn [state_loop].
  destruct (state_bad_flags c' pl q L' H E C G1 G2 G3 G4 G5) as (c2 & pl2 & Q2 & _). rewrite Q2. cbn [bind Z.eqb]. eexists. split; [reflexivity|reflexivity].
Qed.
End Bad.
