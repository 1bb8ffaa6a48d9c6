(** * The state readers of shells and thick shells on an opened plot *)
From Verif Require Import CBase CBaseFacts BinModel D3BufModel D3BufSpec D3BufProofs D3Model D3Spec D3CurProofs D3OpenProofs D3SectProofs D3StateProofs D3ReadModel D3ReadSpec D3ReadProofs D3ElemModel D3ElemSpec D3ElemProofs D3LayerProofs D3ShellProofs.
Open Scope Z_scope.

Lemma each_seen {A B} (f : A -> option B) : forall l m, length l = length m -> (forall k x y, nth_error l k = Some x -> nth_error m k = Some y -> f x = Some y) -> map f l = map Some m.
Proof.
  induction l as [|x l IH]; intros [|y m] L G; cbn [length] in L; try lia; [reflexivity|]. cbn [map]. f_equal; [apply (G O); reflexivity|]. apply IH; [lia|]. intros k a c Ka Kc. apply (G (S k)); assumption.
Qed.

Section Read.
Context (b : dbuf) (titles : Z) (states : list Z) (pl : plot) (V : view b titles states pl).
Let Su := v_su _ _ _ _ V. Let Rg := v_rg _ _ _ _ V. Let So := su_sound b Su.
Ltac nn f := pose proof (nonneg b Su f ltac:(discriminate) ltac:(discriminate)).
Lemma ips_range : 0 <= ips_of b <= 255.
Proof. unfold ips_of. pose proof (maxint_nonneg b). pose proof (su_maxint b Su). lia. Qed.
Lemma shape_ok : shape_of (clear pl) = the_shape b (ips_of b).
Proof.
  unfold shape_of, the_shape. change (pl_cd (clear pl)) with (pl_cd pl). rewrite !(v_cd _ _ _ _ V). cbn [control_value]. fold (ips_of b). pose proof ips_range. nn NEIPS. pose proof (su_neips b Su).
  f_equal; unfold u8; apply Z.mod_small; lia.
Qed.

(** ** Shells *)
Lemma shells_none s : cval b NEL4 = 0 -> read_shells_state pl s = OK (clear pl, None).
Proof. intros Hn. unfold read_shells_state. change (pl_cd (clear pl)) with (pl_cd pl). rewrite !(v_cd _ _ _ _ V). cbn [control_value]. rewrite Hn. reflexivity. Qed.
Lemma shells_out s : 0 < cval b NEL4 -> (length states <= s)%nat -> read_shells_state pl s = OK (with_err pl (Some P_state), None).
Proof.
  intros Hn L. unfold read_shells_state. change (pl_cd (clear pl)) with (pl_cd pl). rewrite !(v_cd _ _ _ _ V). cbn [control_value].
  destruct (Z.eqb_spec (cval b NEL4) 0); [lia|]. unfold state_at. change (pl_states (clear pl)) with (pl_states pl). rewrite (v_states _ _ _ _ V). apply nth_error_None in L. rewrite L. reflexivity.
Qed.
Lemma shells_prefix s p : nth_error states s = Some p -> 0 < cval b NEL4 ->
  read_shells_state pl s = match istrn_of b with None => UB | Some is =>
    do ' (l, hist, adds, o) <- shell_loop (the_shape b (ips_of b)) (negb (ioshl (cval b IOSHL2) =? 0)) (negb (ioshl (cval b IOSHL3) =? 0)) is (nums b (p + s_shell b) (cval b NEL4 * cval b NV2D)) (Z.to_nat (cval b NEL4)) 0
      (filled [] (Z.to_nat (cval b NEIPS * ips_of b * cval b NEL4))) (filled [] (Z.to_nat ((ips_of b - 3) * cval b NEL4))) 0;
    if o =? cval b NEL4 * cval b NV2D then OK (clear pl, Some (l, hist, adds)) else OK (with_err pl (Some P_sanity), None) end /\ 0 <= cval b NEL4 * cval b NV2D < 2 ^ 63.
Proof.
  intros Hs Hn. pose proof (s_order b titles states pl V) as Od. nn NV2D.
  assert (Es : s_tshell b = s_shell b + cval b NV2D * cval b NEL4) by reflexivity.
  destruct (elem_words b titles states pl V (cval b NEL4) (cval b NV2D) (s_shell b) s p Hs) as (Q & Sm & E); [nia|lia|lia|]. split; [|nia].
  unfold read_shells_state. rewrite shape_ok. change (pl_cd (clear pl)) with (pl_cd pl). rewrite !(v_cd _ _ _ _ V). cbn [control_value].
  destruct (Z.eqb_spec (cval b NEL4) 0); [lia|]. unfold state_at. change (pl_states (clear pl)) with (pl_states pl). rewrite (v_states _ _ _ _ V), Hs.
  change (pl_ptr (clear pl)) with (pl_ptr pl). rewrite (v_ptr _ _ _ _ V K_STATE_SHELL (or_intror (nonempty b titles states pl V s p Hs))). cbn [table state_ptr].
  rewrite Q. cbn [bind]. change (pl_istrn (clear pl)) with (pl_istrn pl). rewrite (v_istrn _ _ _ _ V). destruct (istrn_of b) as [is|]; [|reflexivity].
  change (pl_cd (clear pl)) with (pl_cd pl). rewrite !(v_cd _ _ _ _ V). cbn [control_value]. rewrite E. unfold fresh. reflexivity.
Qed.
Lemma words_eq is : shell_words b is = ips_of b * ip_words b + 8 * ioshl (cval b IOSHL2) + 4 * ioshl (cval b IOSHL3) + 12 * stored1 is.
Proof. reflexivity. Qed.
Lemma shell_run s p is : nth_error states s = Some p -> istrn_of b = Some is -> 0 < cval b NEL4 -> shell_words b is <= cval b NV2D ->
  exists l done adone r ra, length l = Z.to_nat (cval b NEL4) /\ (forall k x, nth_error l k = Some x -> shell_ok b (ips_of b) done adone is (p + s_shell b + Z.of_nat k * shell_words b is) x) /\
    read_shells_state pl s = (if cval b NEL4 * shell_words b is =? cval b NEL4 * cval b NV2D then OK (clear pl, Some (l, filled done r, filled adone ra)) else OK (with_err pl (Some P_sanity), None)).
Proof.
  intros Hs Hi Hn Hw. destruct (shells_prefix s p Hs Hn) as (-> & Bd). rewrite Hi. nn NEIPS. pose proof ips_range as Pr.
  destruct (shell_loop_ok b (p + s_shell b) (cval b NEL4 * cval b NV2D) ltac:(lia) (ips_of b) ltac:(lia) is (Z.to_nat (cval b NEL4)) 0 [] []
    (Z.to_nat (cval b NEIPS * ips_of b * cval b NEL4)) (Z.to_nat ((ips_of b - 3) * cval b NEL4))) as (l & done & adone & r & ra & Q & Ll & Hl).
  - lia.
  - fold (shell_words b is). rewrite Z2Nat.id by lia. nia.
  - cbn [length]. lia.
  - assert (0 <= cval b NEIPS * ips_of b * cval b NEL4) by (apply Z.mul_nonneg_nonneg; [apply Z.mul_nonneg_nonneg|]; lia). rewrite !Z2Nat.id by lia. lia.
  - intros _. cbn [length]. lia.
  - intros P3. assert (0 <= (ips_of b - 3) * cval b NEL4) by (apply Z.mul_nonneg_nonneg; lia). rewrite !Z2Nat.id by lia. lia.
  - rewrite <- words_eq in Q, Hl. rewrite Z.mul_0_l in Q. rewrite Q. cbn [bind app]. rewrite Z2Nat.id, Z.add_0_l by lia. exists l, done, adone, r, ra. split; [exact Ll|]. split; [|reflexivity].
    intros k x K. apply (Hl k x K).
Qed.
Lemma shells_ok s p is : nth_error states s = Some p -> istrn_of b = Some is -> 0 < cval b NEL4 -> is = 0 \/ is = 1 -> 3 <= ips_of b -> shell_words b is = cval b NV2D ->
  exists l hist adds, read_shells_state pl s = OK (clear pl, Some (l, hist, adds)) /\ map (see_shell hist adds) l = map Some (each (cval b NEL4) (fun i => shell_spec b is (p + s_shell b + i * cval b NV2D))).
Proof.
  intros Hs Hi Hn Is P3 Hw. destruct (shell_run s p is Hs Hi Hn ltac:(lia)) as (l & done & adone & r & ra & Ll & Hl & Q). rewrite Hw, Z.eqb_refl in Q. exists l, (filled done r), (filled adone ra). split; [exact Q|].
  apply each_seen; [rewrite each_length; exact Ll|]. intros k x y Kx Ky. apply each_nth_inv in Ky as (K & ->). rewrite <- Hw. pose proof ips_range. nn NEIPS. unfold filled. apply (shell_seen b (ips_of b)); auto; lia.
Qed.
Lemma shells_small s p is : nth_error states s = Some p -> istrn_of b = Some is -> 0 < cval b NEL4 -> shell_words b is < cval b NV2D -> read_shells_state pl s = OK (with_err pl (Some P_sanity), None).
Proof.
  intros Hs Hi Hn Hw. destruct (shell_run s p is Hs Hi Hn ltac:(lia)) as (l & done & adone & r & ra & Ll & Hl & Q). destruct (Z.eqb_spec (cval b NEL4 * shell_words b is) (cval b NEL4 * cval b NV2D)); [nia|exact Q].
Qed.
Lemma shells_overrun s p is : nth_error states s = Some p -> istrn_of b = Some is -> 0 < cval b NEL4 -> cval b NV2D < shell_words b is -> read_shells_state pl s = UB.
Proof.
  intros Hs Hi Hn Hw. destruct (shells_prefix s p Hs Hn) as (-> & Bd). rewrite Hi. nn NEIPS. pose proof ips_range as Pr.
  match goal with |- bind ?r _ = _ => pose proof (shell_loop_safe b (p + s_shell b) (cval b NEL4 * cval b NV2D) ltac:(lia) (ips_of b) ltac:(lia) is (Z.to_nat (cval b NEL4)) 0 (filled [] (Z.to_nat (cval b NEIPS * ips_of b * cval b NEL4))) (filled [] (Z.to_nat ((ips_of b - 3) * cval b NEL4))) 0 ltac:(lia)) as S; destruct r as [[[[l h] a] o]| |] end; cbn [safe bind] in *.
  - rewrite <- words_eq, nums_length in S. nia.
  - reflexivity.
  - contradiction.
Qed.
Lemma shells_unset s p : nth_error states s = Some p -> istrn_of b = None -> 0 < cval b NEL4 -> read_shells_state pl s = UB.
Proof. intros Hs Hi Hn. destruct (shells_prefix s p Hs Hn) as (-> & Bd). rewrite Hi. reflexivity. Qed.
(** Strains that are neither 0 nor stored are not written. *)
Lemma shells_other_strains s p is : nth_error states s = Some p -> istrn_of b = Some is -> 0 < cval b NEL4 -> 1 < is -> shell_words b is = cval b NV2D ->
  exists l hist adds, read_shells_state pl s = OK (clear pl, Some (l, hist, adds)) /\ length l = Z.to_nat (cval b NEL4) /\ forall x, In x l -> l_strains (sh_layers x) = None.
Proof.
  intros Hs Hi Hn Is Hw. destruct (shell_run s p is Hs Hi Hn ltac:(lia)) as (l & done & adone & r & ra & Ll & Hl & Q). rewrite Hw, Z.eqb_refl in Q. exists l, (filled done r), (filled adone ra). split; [exact Q|]. split; [exact Ll|].
  intros x X. apply In_nth_error in X as (k & K). apply Hl in K as (_ & _ & _ & _ & K & _). rewrite K. destruct (Z.eqb_spec is 0), (Z.eqb_spec is 1); try lia. reflexivity.
Qed.
(** With fewer than three integration points the number of additional points wraps. *)
Lemma shells_few s p is : nth_error states s = Some p -> istrn_of b = Some is -> 0 < cval b NEL4 -> ips_of b < 3 -> shell_words b is = cval b NV2D ->
  exists l hist adds, read_shells_state pl s = OK (clear pl, Some (l, hist, adds)) /\ length l = Z.to_nat (cval b NEL4) /\ forall x, In x l -> sh_nadd x = 253 + ips_of b /\ l_add (sh_layers x) = None.
Proof.
  intros Hs Hi Hn P3 Hw. destruct (shell_run s p is Hs Hi Hn ltac:(lia)) as (l & done & adone & r & ra & Ll & Hl & Q). rewrite Hw, Z.eqb_refl in Q. exists l, (filled done r), (filled adone ra). split; [exact Q|]. split; [exact Ll|].
  intros x X. apply In_nth_error in X as (k & K). apply Hl in K as (_ & A & _ & U & _). split; [|apply A; lia]. rewrite U. pose proof ips_range. unfold u8. symmetry. apply (Z.mod_unique _ _ (-1)); lia.
Qed.

(** ** Thick shells *)
Lemma thick_none s : cval b NELT = 0 -> read_thick_shells_state pl s = OK (clear pl, None).
Proof. intros Hn. unfold read_thick_shells_state. change (pl_cd (clear pl)) with (pl_cd pl). rewrite !(v_cd _ _ _ _ V). cbn [control_value]. rewrite Hn. reflexivity. Qed.
Lemma thick_out s : 0 < cval b NELT -> (length states <= s)%nat -> read_thick_shells_state pl s = OK (with_err pl (Some P_state), None).
Proof.
  intros Hn L. unfold read_thick_shells_state. change (pl_cd (clear pl)) with (pl_cd pl). rewrite !(v_cd _ _ _ _ V). cbn [control_value].
  destruct (Z.eqb_spec (cval b NELT) 0); [lia|]. unfold state_at. change (pl_states (clear pl)) with (pl_states pl). rewrite (v_states _ _ _ _ V). apply nth_error_None in L. rewrite L. reflexivity.
Qed.
Lemma thick_istrn : 0 < cval b NELT -> exists is, istrn_of b = Some is.
Proof. intros Hn. unfold istrn_of. destruct (100 <=? _); [eauto|]. destruct (0 <? cval b NV2D); [eauto|]. destruct (Z.ltb_spec 0 (cval b NELT)); [eauto|lia]. Qed.
Lemma thick_prefix s p is : nth_error states s = Some p -> istrn_of b = Some is -> 0 < cval b NELT ->
  read_thick_shells_state pl s = (
    do ' (l, hist, adds, o) <- thick_loop (the_shape b (ips_of b)) (is =? 1) (nums b (p + s_tshell b) (cval b NELT * cval b NV3DT)) (Z.to_nat (cval b NELT)) 0
      (filled [] (Z.to_nat (cval b NELT * 3 * cval b NEIPS))) (filled [] (Z.to_nat ((ips_of b - 3) * cval b NELT))) 0;
    if o =? cval b NELT * cval b NV3DT then OK (clear pl, Some (l, hist, adds)) else OK (with_err pl (Some P_sanity), None)) /\ 0 <= cval b NELT * cval b NV3DT < 2 ^ 63.
Proof.
  intros Hs Hi Hn. pose proof (s_order b titles states pl V) as Od. nn NV3DT.
  assert (Es : s_del b = s_tshell b + cval b NV3DT * cval b NELT) by reflexivity.
  destruct (elem_words b titles states pl V (cval b NELT) (cval b NV3DT) (s_tshell b) s p Hs) as (Q & Sm & E); [nia|lia|lia|]. split; [|nia].
  unfold read_thick_shells_state. rewrite shape_ok. change (pl_cd (clear pl)) with (pl_cd pl). rewrite !(v_cd _ _ _ _ V). cbn [control_value].
  destruct (Z.eqb_spec (cval b NELT) 0); [lia|]. unfold state_at. change (pl_states (clear pl)) with (pl_states pl). rewrite (v_states _ _ _ _ V), Hs.
  unfold istrn_is. change (pl_istrn (clear pl)) with (pl_istrn pl). rewrite (v_istrn _ _ _ _ V), Hi. cbn [bind].
  change (pl_ptr (clear pl)) with (pl_ptr pl). rewrite (v_ptr _ _ _ _ V K_STATE_THICK_SHELL (or_intror (nonempty b titles states pl V s p Hs))). cbn [table state_ptr].
  rewrite Q. cbn [bind]. change (pl_cd (clear pl)) with (pl_cd pl). rewrite !(v_cd _ _ _ _ V). cbn [control_value]. rewrite E. unfold fresh. reflexivity.
Qed.
Definition tw (is : Z) : Z := ips_of b * ip_words b + (if ips_of b <? 3 then 0 else extra (Some (is =? 1))).
Lemma tw_words is : 3 <= ips_of b -> tw is = thick_words b is.
Proof. intros P3. unfold tw, thick_words, stored1. destruct (Z.ltb_spec (ips_of b) 3); [lia|]. destruct (is =? 1); cbn [extra]; lia. Qed.
Lemma thick_run s p is : nth_error states s = Some p -> istrn_of b = Some is -> 0 < cval b NELT -> ips_of b <= 3 \/ cval b NEIPS = 0 -> tw is <= cval b NV3DT ->
  exists l done adone r ra, length l = Z.to_nat (cval b NELT) /\ (forall k x, nth_error l k = Some x -> thick_ok b (ips_of b) done adone (is =? 1) (p + s_tshell b + Z.of_nat k * tw is) x) /\
    read_thick_shells_state pl s = (if cval b NELT * tw is =? cval b NELT * cval b NV3DT then OK (clear pl, Some (l, filled done r, filled adone ra)) else OK (with_err pl (Some P_sanity), None)).
Proof.
  intros Hs Hi Hn Hm Hw. destruct (thick_prefix s p is Hs Hi Hn) as (-> & Bd). nn NEIPS. pose proof ips_range as Pr.
  destruct (thick_loop_ok b (p + s_tshell b) (cval b NELT * cval b NV3DT) ltac:(lia) (ips_of b) ltac:(lia) (is =? 1) (Z.to_nat (cval b NELT)) 0 [] []
    (Z.to_nat (cval b NELT * 3 * cval b NEIPS)) (Z.to_nat ((ips_of b - 3) * cval b NELT))) as (l & done & adone & r & ra & Q & Ll & Hl).
  - lia.
  - fold (tw is). rewrite Z2Nat.id by lia. nia.
  - cbn [length]. lia.
  - assert (0 <= cval b NELT * 3 * cval b NEIPS) by (apply Z.mul_nonneg_nonneg; lia). rewrite !Z2Nat.id by lia. destruct Hm as [Hm|Hm]; [|rewrite Hm; lia]. apply Z.mul_le_mono_nonneg_r; [lia|]. apply Z.mul_le_mono_nonneg_l; lia.
  - intros _. cbn [length]. lia.
  - intros P3. assert (0 <= (ips_of b - 3) * cval b NELT) by (apply Z.mul_nonneg_nonneg; lia). rewrite !Z2Nat.id by lia. lia.
  - fold (tw is) in Q, Hl. rewrite Z.mul_0_l in Q. rewrite Q. cbn [bind app]. rewrite Z2Nat.id, Z.add_0_l by lia. exists l, done, adone, r, ra. split; [exact Ll|]. split; [|reflexivity].
    intros k x K. apply (Hl k x K).
Qed.
Lemma thick_shells_ok s p is : nth_error states s = Some p -> istrn_of b = Some is -> 0 < cval b NELT -> ips_of b = 3 \/ (3 <= ips_of b /\ cval b NEIPS = 0) -> thick_words b is = cval b NV3DT ->
  exists l hist adds, read_thick_shells_state pl s = OK (clear pl, Some (l, hist, adds)) /\ map (see_thick hist adds) l = map Some (each (cval b NELT) (fun i => thick_spec b is (p + s_tshell b + i * cval b NV3DT))).
Proof.
  intros Hs Hi Hn Hm Hw. rewrite <- tw_words in Hw by lia. destruct (thick_run s p is Hs Hi Hn ltac:(lia) ltac:(lia)) as (l & done & adone & r & ra & Ll & Hl & Q). rewrite Hw, Z.eqb_refl in Q. exists l, (filled done r), (filled adone ra). split; [exact Q|].
  apply each_seen; [rewrite each_length; exact Ll|]. intros k x y Kx Ky. apply each_nth_inv in Ky as (K & ->). rewrite <- Hw. pose proof ips_range. nn NEIPS. unfold filled. apply (thick_seen b (ips_of b)); auto; lia.
Qed.
Lemma thick_small s p is : nth_error states s = Some p -> istrn_of b = Some is -> 0 < cval b NELT -> ips_of b <= 3 \/ cval b NEIPS = 0 -> tw is < cval b NV3DT -> read_thick_shells_state pl s = OK (with_err pl (Some P_sanity), None).
Proof.
  intros Hs Hi Hn Hm Hw. destruct (thick_run s p is Hs Hi Hn Hm ltac:(lia)) as (l & done & adone & r & ra & Ll & Hl & Q). destruct (Z.eqb_spec (cval b NELT * tw is) (cval b NELT * cval b NV3DT)); [nia|exact Q].
Qed.
Lemma thick_ub s p is : nth_error states s = Some p -> istrn_of b = Some is -> 0 < cval b NELT -> (3 < ips_of b /\ 0 < cval b NEIPS) \/ cval b NV3DT < tw is -> read_thick_shells_state pl s = UB.
Proof.
  intros Hs Hi Hn Hm. destruct (thick_prefix s p is Hs Hi Hn) as (-> & Bd). nn NEIPS. pose proof ips_range as Pr.
  match goal with |- bind ?r _ = _ => pose proof (thick_loop_safe b (p + s_tshell b) (cval b NELT * cval b NV3DT) ltac:(lia) (ips_of b) ltac:(lia) (is =? 1) (Z.to_nat (cval b NELT)) 0 (filled [] (Z.to_nat (cval b NELT * 3 * cval b NEIPS))) (filled [] (Z.to_nat ((ips_of b - 3) * cval b NELT))) 0 ltac:(lia)) as S; destruct r as [[[[l h] a] o]| |] end; cbn [safe bind] in *.
  - fold (tw is) in S. rewrite nums_length, filled_length in S. cbn [length] in S. destruct S as (S1 & S2 & _ & S3). destruct Hm as [(Hm & Hh)|Hm]; [|nia]. exfalso.
    destruct S3 as [S3|[S3|[S3|S3]]]; try lia. assert (0 <= cval b NELT * 3 * cval b NEIPS) by (apply Z.mul_nonneg_nonneg; lia). rewrite Nat.add_0_l, !Z2Nat.id in S3 by lia. nia.
  - reflexivity.
  - contradiction.
Qed.
Lemma thick_few s p is : nth_error states s = Some p -> istrn_of b = Some is -> 0 < cval b NELT -> ips_of b < 3 -> ips_of b * ip_words b = cval b NV3DT ->
  exists l hist adds, read_thick_shells_state pl s = OK (clear pl, Some (l, hist, adds)) /\ length l = Z.to_nat (cval b NELT) /\ forall x, In x l -> ts_nadd x = 253 + ips_of b /\ l_add (ts_layers x) = None.
Proof.
  intros Hs Hi Hn P3 Hw. assert (Et : tw is = cval b NV3DT) by (unfold tw; destruct (Z.ltb_spec (ips_of b) 3); lia).
  destruct (thick_run s p is Hs Hi Hn ltac:(lia) ltac:(lia)) as (l & done & adone & r & ra & Ll & Hl & Q). rewrite Et, Z.eqb_refl in Q. exists l, (filled done r), (filled adone ra). split; [exact Q|]. split; [exact Ll|].
  intros x X. apply In_nth_error in X as (k & K). apply Hl in K as (_ & _ & U & A & _). split; [|apply A; lia]. rewrite U. pose proof ips_range. unfold u8. symmetry. apply (Z.mod_unique _ _ (-1)); lia.
Qed.
End Read.
