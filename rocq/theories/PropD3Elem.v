(** * Properties C45, C46, C58, C59, C60: the element values of a state *)
From Verif Require Import CBase CBaseFacts BinModel D3BufModel D3BufSpec D3BufProofs D3Model D3Spec D3CurProofs D3OpenProofs D3SectProofs D3StateProofs D3Sample D3Rich D3ReadModel D3ReadSpec D3ReadProofs D3ElemModel D3ElemSpec D3ElemProofs D3LayerProofs D3ShellProofs D3ShellReadProofs D3BeamProofs D3MeanProofs PropD3Read.
Open Scope Z_scope.

(** ** C45: solids *)
(** The values are the numbers of the file. *)
Theorem C45_numbers : forall b pos n, supported b -> Forall2 (same_number b) (stretch b pos n) (nums b pos n).
Proof. intros b pos n Su. apply same_doubles. exact Su. Qed.
Theorem C45_solids : forall b titles states pl s p is, opened b titles states pl -> nth_error states s = Some p -> istrn_of b = Some is -> 0 < cval b NEL8 -> solid_words b = cval b NV3D ->
  gives b titles states (read_solids_state pl s) (Some (each (cval b NEL8) (fun i => solid_spec b is (p + s_solid b + i * cval b NV3D)))).
Proof. intros b titles states pl s p is O Hs Hi Hn Hw. apply (gives_clear _ _ _ _ _ _ O), (solids_ok b titles states pl (opened_view _ _ _ _ O) s p is Hs Hi Hn Hw). Qed.
(** More words per solid than its values: an error. *)
Theorem C45_mismatch : forall b titles states pl s p is, opened b titles states pl -> nth_error states s = Some p -> istrn_of b = Some is -> 0 < cval b NEL8 -> solid_words b < cval b NV3D ->
  reports b titles states (read_solids_state pl s) P_sanity None.
Proof. intros b titles states pl s p is O Hs Hi Hn Hw. apply (reports_err _ _ _ _ _ _ _ O), (solids_small b titles states pl (opened_view _ _ _ _ O) s p is Hs Hi Hn Hw). Qed.
Theorem C45_none : forall b titles states pl s, opened b titles states pl -> cval b NEL8 = 0 -> gives b titles states (read_solids_state pl s) None.
Proof. intros b titles states pl s O Hn. apply (gives_clear _ _ _ _ _ _ O), (solids_none b titles states pl (opened_view _ _ _ _ O) s Hn). Qed.
Theorem C45_outside : forall b titles states pl s, opened b titles states pl -> 0 < cval b NEL8 -> (length states <= s)%nat -> reports b titles states (read_solids_state pl s) P_state None.
Proof. intros b titles states pl s O Hn L. apply (reports_err _ _ _ _ _ _ _ O), (solids_out b titles states pl (opened_view _ _ _ _ O) s Hn L). Qed.
(** Fewer words per solid than its values: reads outside of the array. *)
Theorem C45_overrun_refuted : forall b titles states pl s p is, opened b titles states pl -> nth_error states s = Some p -> istrn_of b = Some is -> 0 < cval b NEL8 -> cval b NEIPH = 0 -> cval b NV3D < solid_words b ->
  read_solids_state pl s = UB.
Proof. intros b titles states pl s p is O Hs Hi Hn Hz Hw. apply (solids_overrun b titles states pl (opened_view _ _ _ _ O) s p is Hs Hi Hn Hz Hw). Qed.
(** ISTRN is not set if IDTDT < 100 and there are neither shells nor thick shells:
    an uninitialised value decides whether strains are read. *)
Theorem C45_unset_refuted : forall b titles states pl s p, opened b titles states pl -> nth_error states s = Some p -> istrn_of b = None -> 0 < cval b NEL8 -> read_solids_state pl s = UB.
Proof. intros b titles states pl s p O Hs Hi Hn. apply (solids_unset b titles states pl (opened_view _ _ _ _ O) s p Hs Hi Hn). Qed.

(** ** C46: shells *)
(** The shells [l] with the memory behind their pointers show [views]. *)
Definition gives_seen {A M1 M2 W} (b : dbuf) (titles : Z) (states : list Z) (see1 : M1 -> M2 -> A -> option W) (r : res (plot * option (list A * M1 * M2))) (views : list W) : Prop :=
  exists l m1 m2, gives b titles states r (Some (l, m1, m2)) /\ map (see1 m1 m2) l = map Some views.
Theorem C46_shells : forall b titles states pl s p is, opened b titles states pl -> nth_error states s = Some p -> istrn_of b = Some is -> 0 < cval b NEL4 -> is = 0 \/ is = 1 -> 3 <= ips_of b -> shell_words b is = cval b NV2D ->
  gives_seen b titles states see_shell (read_shells_state pl s) (each (cval b NEL4) (fun i => shell_spec b is (p + s_shell b + i * cval b NV2D))).
Proof.
  intros b titles states pl s p is O Hs Hi Hn Is P3 Hw. destruct (shells_ok b titles states pl (opened_view _ _ _ _ O) s p is Hs Hi Hn Is P3 Hw) as (l & hist & adds & Q & S).
  exists l, hist, adds. split; [|exact S]. apply (gives_clear _ _ _ _ _ _ O), Q.
Qed.
Theorem C46_mismatch : forall b titles states pl s p is, opened b titles states pl -> nth_error states s = Some p -> istrn_of b = Some is -> 0 < cval b NEL4 -> shell_words b is < cval b NV2D ->
  reports b titles states (read_shells_state pl s) P_sanity None.
Proof. intros b titles states pl s p is O Hs Hi Hn Hw. apply (reports_err _ _ _ _ _ _ _ O), (shells_small b titles states pl (opened_view _ _ _ _ O) s p is Hs Hi Hn Hw). Qed.
Theorem C46_none : forall b titles states pl s, opened b titles states pl -> cval b NEL4 = 0 -> gives b titles states (read_shells_state pl s) None.
Proof. intros b titles states pl s O Hn. apply (gives_clear _ _ _ _ _ _ O), (shells_none b titles states pl (opened_view _ _ _ _ O) s Hn). Qed.
Theorem C46_outside : forall b titles states pl s, opened b titles states pl -> 0 < cval b NEL4 -> (length states <= s)%nat -> reports b titles states (read_shells_state pl s) P_state None.
Proof. intros b titles states pl s O Hn L. apply (reports_err _ _ _ _ _ _ _ O), (shells_out b titles states pl (opened_view _ _ _ _ O) s Hn L). Qed.
(** Fewer words per shell than its values: reads outside of the array. *)
Theorem C46_overrun_refuted : forall b titles states pl s p is, opened b titles states pl -> nth_error states s = Some p -> istrn_of b = Some is -> 0 < cval b NEL4 -> cval b NV2D < shell_words b is -> read_shells_state pl s = UB.
Proof. intros b titles states pl s p is O Hs Hi Hn Hw. apply (shells_overrun b titles states pl (opened_view _ _ _ _ O) s p is Hs Hi Hn Hw). Qed.
(** ISTRN > 1: the strains of the shells are uninitialised. *)
Theorem C46_other_strains_refuted : forall b titles states pl s p is, opened b titles states pl -> nth_error states s = Some p -> istrn_of b = Some is -> 0 < cval b NEL4 -> 1 < is -> shell_words b is = cval b NV2D ->
  exists l hist adds, gives b titles states (read_shells_state pl s) (Some (l, hist, adds)) /\ length l = Z.to_nat (cval b NEL4) /\ forall x, In x l -> l_strains (sh_layers x) = None.
Proof.
  intros b titles states pl s p is O Hs Hi Hn Is Hw. destruct (shells_other_strains b titles states pl (opened_view _ _ _ _ O) s p is Hs Hi Hn Is Hw) as (l & hist & adds & Q & L & N). exists l, hist, adds. split; [|auto]. apply (gives_clear _ _ _ _ _ _ O), Q.
Qed.
(** Fewer than three integration points: 253 or more additional points are
    announced, but there are none. *)
Theorem C46_few_points_refuted : forall b titles states pl s p is, opened b titles states pl -> nth_error states s = Some p -> istrn_of b = Some is -> 0 < cval b NEL4 -> ips_of b < 3 -> shell_words b is = cval b NV2D ->
  exists l hist adds, gives b titles states (read_shells_state pl s) (Some (l, hist, adds)) /\ length l = Z.to_nat (cval b NEL4) /\ forall x, In x l -> sh_nadd x = 253 + ips_of b /\ l_add (sh_layers x) = None.
Proof.
  intros b titles states pl s p is O Hs Hi Hn P3 Hw. destruct (shells_few b titles states pl (opened_view _ _ _ _ O) s p is Hs Hi Hn P3 Hw) as (l & hist & adds & Q & L & N). exists l, hist, adds. split; [|auto]. apply (gives_clear _ _ _ _ _ _ O), Q.
Qed.

(** ** C58: thick shells *)
Theorem C58_thick_shells : forall b titles states pl s p is, opened b titles states pl -> nth_error states s = Some p -> istrn_of b = Some is -> 0 < cval b NELT -> ips_of b = 3 \/ (3 <= ips_of b /\ cval b NEIPS = 0) -> thick_words b is = cval b NV3DT ->
  gives_seen b titles states see_thick (read_thick_shells_state pl s) (each (cval b NELT) (fun i => thick_spec b is (p + s_tshell b + i * cval b NV3DT))).
Proof.
  intros b titles states pl s p is O Hs Hi Hn P3 Hw. destruct (thick_shells_ok b titles states pl (opened_view _ _ _ _ O) s p is Hs Hi Hn P3 Hw) as (l & hist & adds & Q & S).
  exists l, hist, adds. split; [|exact S]. apply (gives_clear _ _ _ _ _ _ O), Q.
Qed.
(** With thick shells ISTRN is always set. *)
Theorem C58_strains_known : forall b, 0 < cval b NELT -> exists is, istrn_of b = Some is.
Proof. exact thick_istrn. Qed.
Theorem C58_mismatch : forall b titles states pl s p is, opened b titles states pl -> nth_error states s = Some p -> istrn_of b = Some is -> 0 < cval b NELT -> ips_of b = 3 \/ (3 <= ips_of b /\ cval b NEIPS = 0) -> thick_words b is < cval b NV3DT ->
  reports b titles states (read_thick_shells_state pl s) P_sanity None.
Proof.
  intros b titles states pl s p is O Hs Hi Hn P3 Hw. apply (reports_err _ _ _ _ _ _ _ O), (thick_small b titles states pl (opened_view _ _ _ _ O) s p is Hs Hi Hn); [lia|]. rewrite tw_words by lia. exact Hw.
Qed.
Theorem C58_none : forall b titles states pl s, opened b titles states pl -> cval b NELT = 0 -> gives b titles states (read_thick_shells_state pl s) None.
Proof. intros b titles states pl s O Hn. apply (gives_clear _ _ _ _ _ _ O), (thick_none b titles states pl (opened_view _ _ _ _ O) s Hn). Qed.
Theorem C58_outside : forall b titles states pl s, opened b titles states pl -> 0 < cval b NELT -> (length states <= s)%nat -> reports b titles states (read_thick_shells_state pl s) P_state None.
Proof. intros b titles states pl s O Hn L. apply (reports_err _ _ _ _ _ _ _ O), (thick_out b titles states pl (opened_view _ _ _ _ O) s Hn L). Qed.
(** More than three integration points with history variables: writes outside of
    the array of the history variables. *)
Theorem C58_overflow_refuted : forall b titles states pl s p, opened b titles states pl -> nth_error states s = Some p -> 0 < cval b NELT -> 3 < ips_of b -> 0 < cval b NEIPS -> read_thick_shells_state pl s = UB.
Proof.
  intros b titles states pl s p O Hs Hn P3 Hh. destruct (thick_istrn b Hn) as (is & Hi). apply (thick_ub b titles states pl (opened_view _ _ _ _ O) s p is Hs Hi Hn). left. auto.
Qed.

(** ** C59: beams *)
Theorem C59_beams : forall b titles states pl s p nip, opened b titles states pl -> nth_error states s = Some p -> 0 < cval b NEL2 -> 0 <= nip <= 255 -> cval b NEIPB <= 255 -> cval b NV1D = 6 + 3 * cval b NEIPB + nip * (5 + cval b NEIPB) ->
  gives_seen b titles states see_beam (read_beams_state pl s) (each (cval b NEL2) (fun i => beam_spec b nip (p + s_beam b + i * cval b NV1D))).
Proof.
  intros b titles states pl s p nip O Hs Hn Hp Hh Hv. destruct (beams_ok b titles states pl (opened_view _ _ _ _ O) s p nip Hs Hn Hp Hh Hv) as (l & ips & hist & Q & S).
  exists l, ips, hist. split; [|exact S]. apply (gives_clear _ _ _ _ _ _ O), Q.
Qed.
(** Any other number of words per beam: an error. *)
Theorem C59_mismatch : forall b titles states pl s p, opened b titles states pl -> nth_error states s = Some p -> 0 < cval b NEL2 ->
  (forall nip, 0 <= nip <= 255 -> cval b NEIPB <= 255 -> cval b NV1D <> 6 + 3 * cval b NEIPB + nip * (5 + cval b NEIPB)) ->
  exists e, reports b titles states (read_beams_state pl s) e None.
Proof.
  intros b titles states pl s p O Hs Hn No. pose proof (opened_view _ _ _ _ O) as V. pose proof (nonneg b (v_su _ _ _ _ V) NEIPB ltac:(discriminate) ltac:(discriminate)) as Nb.
  destruct (Z_lt_le_dec (cval b NV1D) (6 + 3 * cval b NEIPB)) as [C|C]; [exists P_beam; apply (reports_err _ _ _ _ _ _ _ O), (beams_error b titles states pl V s p Hs Hn); auto|].
  destruct (Z_lt_le_dec 255 (cval b NEIPB)) as [C1|C1]; [exists P_beam; apply (reports_err _ _ _ _ _ _ _ O), (beams_error b titles states pl V s p Hs Hn); auto|].
  destruct (Z_lt_le_dec 255 (fit b)) as [C2|C2]; [exists P_beam; apply (reports_err _ _ _ _ _ _ _ O), (beams_error b titles states pl V s p Hs Hn); auto|].
  exists P_sanity. apply (reports_err _ _ _ _ _ _ _ O), (beams_small b titles states pl V s p Hs Hn C C1 C2). intros M.
  apply (No (fit b)); [|exact C1|].
  - split; [|exact C2]. unfold fit. apply Z.div_pos; lia.
  - unfold fit. pose proof (Z.div_mod (cval b NV1D - 6 - 3 * cval b NEIPB) (5 + cval b NEIPB) ltac:(lia)). lia.
Qed.
Theorem C59_none : forall b titles states pl s, opened b titles states pl -> cval b NEL2 = 0 -> gives b titles states (read_beams_state pl s) None.
Proof. intros b titles states pl s O Hn. apply (gives_clear _ _ _ _ _ _ O), (beams_none b titles states pl (opened_view _ _ _ _ O) s Hn). Qed.
Theorem C59_outside : forall b titles states pl s, opened b titles states pl -> 0 < cval b NEL2 -> (length states <= s)%nat -> reports b titles states (read_beams_state pl s) P_state None.
Proof. intros b titles states pl s O Hn L. apply (reports_err _ _ _ _ _ _ _ O), (beams_out b titles states pl (opened_view _ _ _ _ O) s Hn L). Qed.

(** ** C60: mean values, for every addition and division of doubles *)
Section Mean.
Variables (fadd fdiv : Z -> Z -> Z) (of_int : Z -> Z).
Theorem C60_shell : forall hist adds s v, 0 <= sh_nhv s -> 0 <= sh_nadd s -> see_shell hist adds s = Some v -> Forall (fun x => length (v_sigma x) = 6%nat) (w_ips v) ->
  get_shell_mean fadd fdiv of_int s hist adds = OK (mean_view fadd fdiv of_int (Z.to_nat (sh_nhv s)) (w_ips v)).
Proof.
  intros hist adds s v Nh Na E F. unfold see_shell in E. destruct (see_layers hist adds (sh_nhv s) (sh_nadd s) (sh_layers s)) as [ips|] eqn:Es; [|discriminate]. destruct (l_strains (sh_layers s)) as [[i o]|]; [|discriminate]. injection E as <-. cbn [w_ips] in *.
  apply get_mean_ok; assumption.
Qed.
Theorem C60_thick_shell : forall hist adds s v, 0 <= ts_nhv s -> 0 <= ts_nadd s -> see_thick hist adds s = Some v -> Forall (fun x => length (v_sigma x) = 6%nat) (x_ips v) ->
  get_thick_shell_mean fadd fdiv of_int s hist adds = OK (mean_view fadd fdiv of_int (Z.to_nat (ts_nhv s)) (x_ips v)).
Proof.
  intros hist adds s v Nh Na E F. unfold see_thick in E. destruct (see_layers hist adds (ts_nhv s) (ts_nadd s) (ts_layers s)) as [ips|] eqn:Es; [|discriminate]. destruct (l_strains (ts_layers s)) as [[i o]|]; [|discriminate]. injection E as <-. cbn [x_ips] in *.
  apply get_mean_ok; assumption.
Qed.
(** The shells of a state: the mean of shell [i] is the mean over the integration
    points the file stores for it. *)
Theorem C60_shells_of_state : forall b titles states pl s p is, opened b titles states pl -> nth_error states s = Some p -> istrn_of b = Some is -> 0 < cval b NEL4 -> is = 0 \/ is = 1 -> 3 <= ips_of b -> shell_words b is = cval b NV2D ->
  exists l hist adds, gives b titles states (read_shells_state pl s) (Some (l, hist, adds)) /\
    map (fun x => get_shell_mean fadd fdiv of_int x hist adds) l =
    each (cval b NEL4) (fun i => OK (mean_view fadd fdiv of_int (Z.to_nat (cval b NEIPS)) (each (ips_of b) (fun j => surface_spec b (p + s_shell b + i * cval b NV2D + j * ip_words b))))).
Proof.
  intros b titles states pl s p is O Hs Hi Hn Is P3 Hw. pose proof (opened_view _ _ _ _ O) as V. pose proof (ips_range b titles states pl V) as Pr. pose proof (nonneg b (v_su _ _ _ _ V) NEIPS ltac:(discriminate) ltac:(discriminate)) as Nh.
  destruct (shell_run b titles states pl V s p is Hs Hi Hn ltac:(lia)) as (l & done & adone & r & ra & Ll & Hl & Q). rewrite Hw, Z.eqb_refl in Q. exists l, (filled done r), (filled adone ra). split; [apply (gives_clear _ _ _ _ _ _ O), Q|].
  apply nth_ext with (d := UB) (d' := UB); [rewrite map_length, each_length; exact Ll|]. intros k K. rewrite map_length, Ll in K.
  rewrite (nth_error_nth _ k UB (x := OK (mean_view fadd fdiv of_int (Z.to_nat (cval b NEIPS)) (each (ips_of b) (fun j => surface_spec b (p + s_shell b + Z.of_nat k * cval b NV2D + j * ip_words b)))))); [|rewrite nth_error_map; destruct (nth_error l k) as [x|] eqn:Ex; [|apply nth_error_None in Ex; lia]].
  - symmetry. apply nth_error_nth. apply each_nth. exact K.
  - cbn [option_map]. f_equal. pose proof (Hl k x Ex) as Hx. rewrite <- Hw. pose proof (shell_seen b (ips_of b) done adone (repeat None r) (repeat None ra) is (p + s_shell b + Z.of_nat k * shell_words b is) x ltac:(lia) Is eq_refl Hx) as S.
    destruct Hx as (_ & _ & X1 & X2 & _). fold (filled done r) in S. fold (filled adone ra) in S. rewrite <- X1. change (each (ips_of b) (fun j => surface_spec b (p + s_shell b + Z.of_nat k * shell_words b is + j * ip_words b))) with (w_ips (shell_spec b is (p + s_shell b + Z.of_nat k * shell_words b is))). apply C60_shell; [rewrite X1; exact Nh| |exact S|].
    + rewrite X2. unfold u8. apply Z.mod_pos_bound. lia.
    + apply Forall_forall. intros v Iv. cbn [shell_spec w_ips] in Iv. unfold each in Iv. apply in_map_iff in Iv as (j & <- & _). cbn [surface_spec v_sigma]. unfold group. destruct (_ =? 0); [apply repeat_length|apply nums_length].
Qed.
(** Fewer than three integration points: the mean reads through a null pointer. *)
Theorem C60_few_points_refuted : forall b titles states pl s p is, opened b titles states pl -> nth_error states s = Some p -> istrn_of b = Some is -> 0 < cval b NEL4 -> ips_of b < 3 -> shell_words b is = cval b NV2D ->
  exists l hist adds, gives b titles states (read_shells_state pl s) (Some (l, hist, adds)) /\ l <> [] /\ forall x, In x l -> get_shell_mean fadd fdiv of_int x hist adds = UB.
Proof.
  intros b titles states pl s p is O Hs Hi Hn P3 Hw. destruct (C46_few_points_refuted b titles states pl s p is O Hs Hi Hn P3 Hw) as (l & hist & adds & G & L & N). pose proof (ips_range b titles states pl (opened_view _ _ _ _ O)) as Pr.
  exists l, hist, adds. split; [exact G|]. split; [intros ->; cbn [length] in L; lia|]. intros x X. destruct (N x X) as (A & B). unfold get_shell_mean, get_mean. rewrite (mean_loop_null fadd fdiv of_int (sh_layers x) (sh_nhv x) hist adds B); [reflexivity|lia|lia].
Qed.
End Mean.

(** ** Non-vacuity *)
Example C45_example : exists pl, opened rich3 148 [189; 358] pl /\ istrn_of rich3 = Some 1 /\ solid_words rich3 = cval rich3 NV3D /\ cval rich3 NV3D = 13 /\
  map (fun i => 2000 + i) [47; 48; 49; 50; 51; 52; 53; 54; 55; 56; 57; 58; 59] = stretch rich3 (358 + s_solid rich3) 13.
Proof. destruct rich3_opened as (pl & O). exists pl. split; [exact O|]. repeat split; vm_compute; reflexivity. Qed.
Definition few_solid_words : dbuf := rich [(34, 0); (27, 6)] 162.
Example C45_overrun_example : exists pl, opened few_solid_words 148 [189; 351] pl /\ cval few_solid_words NEIPH = 0 /\ cval few_solid_words NV3D < solid_words few_solid_words.
Proof.
  assert (X : exists pl, opened few_solid_words 148 [189; 351] pl) by (change [189; 351] with [189; 189 + 162]; prove_opened few_solid_words 162).
  destruct X as (pl & O). exists pl. split; [exact O|]. split; vm_compute; reflexivity.
Qed.
Definition solids_only : dbuf := sample_with (sample_settings ++ [(33, 0)]) [firstn 42 (state_words 1000) ++ [EOF32; 0]].
Example C45_unset_example : exists pl, opened solids_only 113 [154] pl /\ istrn_of solids_only = None /\ 0 < cval solids_only NEL8.
Proof.
  assert (X : exists pl, opened solids_only 113 [154] pl).
  { apply open_sample; [prove_supported|prove_regular|]. exists 152, 154. split; [apply sample_blocks; try (vm_compute; reflexivity); decide_le|]. split; [apply (file_in_end solids_only 0); vm_compute; reflexivity|].
    apply st_state; [split; decide_le|vm_compute; reflexivity|unfold below; vm_compute; reflexivity|]. replace (154 + state_size solids_only) with 196 by (vm_compute; reflexivity).
    apply st_end with (q := 198); [split; decide_le|vm_compute; reflexivity|]. apply (file_in_end solids_only 1). vm_compute. reflexivity. }
  destruct X as (pl & O). exists pl. split; [exact O|]. split; vm_compute; reflexivity.
Qed.
Example C46_example : exists pl, opened rich4 148 [189; 374] pl /\ istrn_of rich4 = Some 1 /\ ips_of rich4 = 4 /\ cval rich4 NEIPS = 1 /\ shell_words rich4 1 = cval rich4 NV2D /\ cval rich4 NV2D = 56 /\
  stretch rich4 (189 + s_shell rich4 + 3 * ip_words rich4) 8 = [1105; 1106; 1107; 1108; 1109; 1110; 1111; 1112].
Proof. destruct rich4_opened as (pl & O). exists pl. split; [exact O|]. repeat split; vm_compute; reflexivity. Qed.
Definition other_strains : dbuf := rich [(56, 20000); (33, 36); (42, 24)] 145.
Example C46_other_strains_example : exists pl, opened other_strains 148 [189; 334] pl /\ istrn_of other_strains = Some 2 /\ shell_words other_strains 2 = cval other_strains NV2D.
Proof.
  assert (X : exists pl, opened other_strains 148 [189; 334] pl) by (change [189; 334] with [189; 189 + 145]; prove_opened other_strains 145).
  destruct X as (pl & O). exists pl. split; [exact O|]. split; vm_compute; reflexivity.
Qed.
Definition two_points : dbuf := rich [(36, 2 ^ 32 - 10002); (33, 40); (42, 16)] 141.
Example C46_few_points_example : exists pl, opened two_points 148 [189; 330] pl /\ ips_of two_points = 2 /\ istrn_of two_points = Some 1 /\ shell_words two_points 1 = cval two_points NV2D.
Proof.
  assert (X : exists pl, opened two_points 148 [189; 330] pl) by (change [189; 330] with [189; 189 + 141]; prove_opened two_points 141).
  destruct X as (pl & O). exists pl. split; [exact O|]. repeat split; vm_compute; reflexivity.
Qed.
Definition few_shell_words : dbuf := rich [(33, 47)] 168.
Example C46_overrun_example : exists pl, opened few_shell_words 148 [189; 357] pl /\ cval few_shell_words NV2D < shell_words few_shell_words 1.
Proof.
  assert (X : exists pl, opened few_shell_words 148 [189; 357] pl) by (change [189; 357] with [189; 189 + 168]; prove_opened few_shell_words 168).
  destruct X as (pl & O). exists pl. split; [exact O|]. vm_compute; reflexivity.
Qed.
Example C58_example : exists pl, opened rich3 148 [189; 358] pl /\ ips_of rich3 = 3 /\ thick_words rich3 1 = cval rich3 NV3DT /\ cval rich3 NELT = 1 /\ cval rich3 NEIPS = 1.
Proof. destruct rich3_opened as (pl & O). exists pl. split; [exact O|]. repeat split; vm_compute; reflexivity. Qed.
Example C58_overflow_example : exists pl, opened rich4 148 [189; 374] pl /\ 0 < cval rich4 NELT /\ 3 < ips_of rich4 /\ 0 < cval rich4 NEIPS /\ thick_words rich4 1 = cval rich4 NV3DT.
Proof. destruct rich4_opened as (pl & O). exists pl. split; [exact O|]. repeat split; vm_compute; reflexivity. Qed.
Example C59_example : exists pl, opened rich3 148 [189; 358] pl /\ cval rich3 NEL2 = 1 /\ cval rich3 NEIPB = 1 /\ cval rich3 NV1D = 6 + 3 * cval rich3 NEIPB + 2 * (5 + cval rich3 NEIPB).
Proof. destruct rich3_opened as (pl & O). exists pl. split; [exact O|]. repeat split; vm_compute; reflexivity. Qed.
Definition odd_beams : dbuf := rich [(30, 22)] 170.
Example C59_mismatch_example : exists pl, opened odd_beams 148 [189; 359] pl /\ 0 < cval odd_beams NEL2 /\ forall nip, 0 <= nip <= 255 -> cval odd_beams NEIPB <= 255 -> cval odd_beams NV1D <> 6 + 3 * cval odd_beams NEIPB + nip * (5 + cval odd_beams NEIPB).
Proof.
  assert (X : exists pl, opened odd_beams 148 [189; 359] pl) by (change [189; 359] with [189; 189 + 170]; prove_opened odd_beams 170).
  destruct X as (pl & O). exists pl. split; [exact O|]. split; [vm_compute; reflexivity|]. replace (cval odd_beams NEIPB) with 1 by (vm_compute; reflexivity). replace (cval odd_beams NV1D) with 22 by (vm_compute; reflexivity). lia.
Qed.
Example C60_example : mean_view Z.add Z.div (fun n => n) 1 [{| v_sigma := [1; 2; 3; 4; 5; 6]; v_plastic := 7; v_history := [8] |}; {| v_sigma := [3; 4; 5; 6; 7; 8]; v_plastic := 9; v_history := [10] |}] = ([2; 3; 4; 5; 6; 7], 8, [9]).
Proof. reflexivity. Qed.
Print Assumptions C45_numbers.
Print Assumptions C45_solids.
Print Assumptions C45_mismatch.
Print Assumptions C45_none.
Print Assumptions C45_outside.
Print Assumptions C45_overrun_refuted.
Print Assumptions C45_unset_refuted.
Print Assumptions C46_shells.
Print Assumptions C46_mismatch.
Print Assumptions C46_none.
Print Assumptions C46_outside.
Print Assumptions C46_overrun_refuted.
Print Assumptions C46_other_strains_refuted.
Print Assumptions C46_few_points_refuted.
Print Assumptions C58_thick_shells.
Print Assumptions C58_strains_known.
Print Assumptions C58_mismatch.
Print Assumptions C58_none.
Print Assumptions C58_outside.
Print Assumptions C58_overflow_refuted.
Print Assumptions C59_beams.
Print Assumptions C59_mismatch.
Print Assumptions C59_none.
Print Assumptions C59_outside.
Print Assumptions C60_shell.
Print Assumptions C60_thick_shell.
Print Assumptions C60_shells_of_state.
Print Assumptions C60_few_points_refuted.
