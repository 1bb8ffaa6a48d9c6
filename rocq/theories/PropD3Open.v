(** * Properties C38, C39, C40, C51, C53, C54: opening a d3plot *)
From Verif Require Import CBase CBaseFacts BinModel D3BufModel D3BufSpec D3BufProofs D3Model D3Spec D3CurProofs D3OpenProofs D3SectProofs D3StateProofs D3BadProofs D3Sample.
Open Scope Z_scope.

(** ** C38 *)
Theorem C38_digit : forall v n, 0 <= v < 2 ^ 64 -> 0 <= n -> nth_digit v n = OK (v / 10 ^ n mod 10).
Proof. exact nth_digit_spec. Qed.
Example C38_example : nth_digit 10110 4 = OK 1 /\ nth_digit 10110 3 = OK 0 /\ nth_digit 10110 9 = OK 0 /\ nth_digit 907 2 = OK 9.
Proof. repeat split; vm_compute; reflexivity. Qed.
Print Assumptions C38_digit.

(** ** C53: the control data *)

(** The files of the file system that belong to the root name, with the word size. *)
Definition family_buffer (files : list dfile) (ws : Z) : dbuf := {| d_files := files; d_ws := ws; d_err := None |}.
(** d3plot_open finds the family and its word size. *)
Theorem C53_finds_family : forall fs root files ws, family_of fs root files -> let b := family_buffer files ws in
  supported b -> (cval b IA = 0 \/ cval b IA = 1) -> ~ plausible b (12 - ws) -> d3plot_open fs root = open_buffer b.
Proof.
  intros fs root files ws F b Su Fl Np. pose proof (su_sound b Su) as So. pose proof (order b Su) as O. destruct (has_marker b Su) as (_ & Hm).
  assert (E : family MAX_FILES fs root 0 = files) by (apply (family_unique fs root); [apply family_family_of|exact F]).
  assert (So4 : sound_family (start_buffer files)) by (destruct So as (A & B & _); split; [exact A|split; [exact B|left; reflexivity]]).
  assert (W : ws = 4 \/ ws = 8) by apply So.
  assert (T : 184 <= total (start_buffer files)) by (change (total (start_buffer files)) with (total b); change (d_ws b) with ws in Hm; destruct W; subst ws; lia).
  unfold d3plot_open. rewrite (open_ok fs root files E So4 T). cbn [bind].
  assert (P : plausible b ws).
  { pose proof (su_ndim b Su) as Nd. pose proof (su_icode b Su) as Ic. pose proof (su_type b Su) as Ty. pose proof (su_zero b Su IT ltac:(cbn; tauto)) as It.
    unfold cval, wd in Nd, Ic, Ty, It, Fl. cbn [control_pos] in Nd, Ic, It, Fl. change (d_ws b) with ws in *. unfold plausible. cbv zeta. lia. }
  assert (V : forall w, verdict (start_buffer files) w = true <-> plausible b w) by (intros w; exact (makes_sense_spec (start_buffer files) w)).
  destruct W as [-> | ->].
  - assert (V4 : verdict (start_buffer files) 4 = true) by (apply V; exact P). assert (V8 : verdict (start_buffer files) 8 = false) by (apply not_true_is_false; intros X; apply V in X; contradiction).
    rewrite V4, V8. reflexivity.
  - assert (V8 : verdict (start_buffer files) 8 = true) by (apply V; exact P). assert (V4 : verdict (start_buffer files) 4 = false) by (apply not_true_is_false; intros X; apply V in X; contradiction).
    rewrite V4, V8. reflexivity.
Qed.
(** A supported plot is opened without an error, and its control data consists
    of the words at the documented positions. *)
Theorem C53_control_data : forall b titles states, supported b -> regular_states b -> layout b titles states ->
  exists pl, open_buffer b = OK pl /\ pl_err pl = None /\ pl_buf pl = b /\ (forall f, pl_cd pl f = control_value b f) /\ pl_istrn pl = istrn_of b.
Proof.
  intros b titles states Su Rg La. destruct (open_live b Su Rg titles states La) as (pl & Q & E & B & C & I & _). exists pl. auto.
Qed.

(** ** C39 *)
Theorem C39_tables : forall b titles states, supported b -> regular_states b -> layout b titles states ->
  exists pl, open_buffer b = OK pl /\ pl_err pl = None /\
    consecutive (pl_ptr pl) 0 (head_tables b) (geometry_end b) /\
    (has_ids b = true -> consecutive (pl_ptr pl) (geometry_end b) (id_tables b) (ids_end b)) /\
    (has_ids b = true -> part_ids_present b = false -> pl_ptr pl K_PART_IDS = 0) /\
    (has_ids b = false -> forall k, In k [K_NODE_IDS; K_EL8_IDS; K_EL2_IDS; K_EL4_IDS; K_ELT_IDS; K_PART_IDS] -> pl_ptr pl k = 0) /\
    geometry_end b <= ids_end b <= marker_pos b /\ has b (marker_pos b) /\ pl_ptr pl K_PART_TITLES = titles.
Proof.
  intros b titles states Su Rg La. destruct (open_live b Su Rg titles states La) as (pl & Q & E & _ & _ & _ & _ & _ & T). exists pl. split; [exact Q|]. split; [exact E|].
  assert (Cg : forall l, Forall (fun p => match fst p with Some k => state_kind k = false | None => True end) l -> forall pos e, consecutive (table b titles) pos l e -> consecutive (pl_ptr pl) pos l e).
  { induction 1 as [|(k & n) l F _ IH]; intros pos e Cs; cbn [consecutive] in *; [exact Cs|]. destruct Cs as (C1 & C2 & C3). split; [exact C1|]. split; [|apply IH; exact C3].
    destruct k as [k|]; [|exact I]. intros N. rewrite T by (left; exact F). auto. }
  destruct (table_head b Su titles) as (Th & Le). split; [apply Cg; [repeat constructor|exact Th]|].
  split; [intros Hi; apply Cg; [unfold id_tables; destruct (part_ids_present b); repeat constructor|apply table_ids; auto]|].
  split; [intros Hi Pp; rewrite T by (left; reflexivity); cbn [table]; unfold ids_ptr; rewrite Hi, Pp; reflexivity|].
  split; [intros Hi k K; assert (Sk : state_kind k = false) by (destruct K as [<- | [<- | [<- | [<- | [<- | [<- | []]]]]]]; reflexivity);
    rewrite T by (left; exact Sk); destruct K as [<- | [<- | [<- | [<- | [<- | [<- | []]]]]]]; cbn [table]; unfold ids_ptr; rewrite Hi; reflexivity|].
  split; [exact Le|]. split; [apply has_marker; exact Su|]. rewrite T by (left; reflexivity). reflexivity.
Qed.

(** ** C40 *)
Theorem C40_state_tables : forall b titles states, supported b -> regular_states b -> layout b titles states -> states <> [] ->
  exists pl, open_buffer b = OK pl /\ pl_err pl = None /\ consecutive (pl_ptr pl) 0 (state_tables b) (state_size b).
Proof.
  intros b titles states Su Rg La Ne. destruct (open_live b Su Rg titles states La) as (pl & Q & E & _ & _ & _ & _ & _ & T). exists pl. split; [exact Q|]. split; [exact E|].
  assert (Cg : forall l pos e, consecutive (table b titles) pos l e -> consecutive (pl_ptr pl) pos l e).
  { induction l as [|(k & n) l IH]; intros pos e Cs; cbn [consecutive] in *; [exact Cs|].
    destruct Cs as (C1 & C2 & C3). split; [exact C1|]. split; [|apply IH; exact C3]. destruct k as [k|]; [|exact I]. intros N. rewrite T by (right; exact Ne). auto. }
  apply Cg. apply table_state; assumption.
Qed.
(** IU, IV or IA that announce another number of nodal words than there are
    vectors: the plot is rejected. *)
Theorem C40_disagreement_rejected : forall b titles hdr_end q, supported b ->
  blocks b (marker_pos b + 1) 0 hdr_end titles -> file_end b (hdr_end - 1) q true -> has b q -> is_eof (d_ws b) (wd b q) = false ->
  global_minimum b <= cval b NGLBV -> s_therm b < 2 ^ 60 -> below b (q + s_therm b) ->
  3 * (cval b IU + cval b IV + cval b IA) * cval b NUMNP < 2 ^ 64 ->
  3 * (cval b IU + cval b IV + cval b IA) * cval b NUMNP <> 3 * cval b NUMNP * flag (cval b IU) + 3 * cval b NUMNP * flag (cval b IV) + 3 * cval b NUMNP * flag (cval b IA) ->
  exists pl, open_buffer b = OK pl /\ pl_err pl = Some P_nodedata.
Proof.
  intros b titles hdr_end q Su Bl Fe H E G1 G2 G3 G4 G5. eapply open_bad_flags; eauto. unfold s_therm, s_acc, s_vel. lia.
Qed.
(** Too few global variables are announced for the numbers of materials: no
    error, but all states are missing. *)
Theorem C40_globals_refuted : forall b titles hdr_end q, supported b ->
  blocks b (marker_pos b + 1) 0 hdr_end titles -> file_end b (hdr_end - 1) q true -> has b q -> is_eof (d_ws b) (wd b q) = false ->
  cval b NGLBV < global_minimum b < 2 ^ 60 -> exists pl, open_buffer b = OK pl /\ pl_err pl = None /\ pl_states pl = [].
Proof. intros b titles hdr_end q Su. apply open_small_global. exact Su. Qed.

(** ** C54: the states *)
Theorem C54_states : forall b titles states, supported b -> regular_states b -> layout b titles states ->
  exists pl, open_buffer b = OK pl /\ pl_err pl = None /\ pl_states pl = states.
Proof.
  intros b titles states Su Rg La. destruct (open_live b Su Rg titles states La) as (pl & Q & E & _ & _ & _ & _ & S & _). exists pl. auto.
Qed.
(** They do not overlap, are complete, and lie behind the header. *)
Theorem C54_states_apart : forall b titles states, supported b -> regular_states b -> layout b titles states ->
  forall i p, nth_error states i = Some p -> marker_pos b < p /\ below b (p + state_size b) /\ is_eof (d_ws b) (wd b p) = false /\
  forall j p', (i < j)%nat -> nth_error states j = Some p' -> p + state_size b <= p'.
Proof.
  intros b titles states Su Rg (hdr_end & q & Bl & Fe & St) i p N. destruct (states_apart b Su Rg q states St i p N) as (A1 & A2). split; [|exact A2].
  assert (Grow : forall pos t pos' t', blocks b pos t pos' t' -> pos < pos').
  { clear - Su. pose proof (ws_cases b Su) as W. pose proof (wd_u64 b (su_sound b Su) (su_bytes b Su)) as U.
    induction 1 as [pos t H E|pos t pos' t' H E B _ IH|pos t pos' t' H P E B _ IH|pos t pos' t' H P E B _ IH|pos t pos' t' H P E B _ IH]; [lia| | | |];
    try (specialize (U (pos + 1))); (destruct W as [W|W]; rewrite W in *; [change (72 / 4) with 18 in *; change (80 / 4) with 20 in *|change (72 / 8) with 9 in *; change (80 / 8) with 10 in *]; lia). }
  apply Grow in Bl.
  destruct Fe as (pre & f & post & _ & I1 & I2 & _). destruct (ws_cases b Su) as [W|W]; rewrite W in *; lia.
Qed.

(** A state that is not followed by anything (neither another state nor an end
    marker) is dropped without an error, although all its words exist. *)
Definition unmarked : dbuf := sample_with sample_settings [state_words 1000 ++ state_words 2000].
Theorem C54_last_state_refuted : exists b pl, supported b /\ regular_states b /\ open_buffer b = OK pl /\ pl_err pl = None /\ pl_states pl = [154] /\
  state_size b = 75 /\ has b (229 + 75 - 1) /\ is_eof (d_ws b) (wd b 229) = false.
Proof.
  exists unmarked. eexists. split; [prove_supported|]. split; [prove_regular|]. split; [vm_compute; reflexivity|]. split; [reflexivity|]. split; [reflexivity|]. split; [vm_compute; reflexivity|].
  split; [split; decide_le|vm_compute; reflexivity].
Qed.

(** ** Non-vacuity *)
(** A plot with a solid, a shell, ids, part titles, and two states in a second file. *)
Example C53_example : supported sample /\ regular_states sample /\ layout sample 113 [154; 229] /\
  control_value sample NUMNP = 2 /\ control_value sample MAXINT = 3 /\ control_value sample MDLOPT = 2 /\ istrn_of sample = Some 0 /\ ~ plausible sample 8.
Proof.
  split; [exact sample_supported|]. split; [exact sample_regular|]. split; [exact sample_layout|]. repeat (split; [vm_compute; reflexivity|]).
  rewrite <- makes_sense_spec. vm_compute. discriminate.
Qed.
(** A plot that stores displacements (IU = 2) is rejected. *)
Definition displaced : dbuf := sample_with (sample_settings ++ [(20, 2)]) [sample_file2].
Example C40_displacements : supported displaced /\ exists pl, open_buffer displaced = OK pl /\ pl_err pl = Some P_nodedata.
Proof.
  assert (Su : supported displaced) by prove_supported. split; [exact Su|].
  apply (C40_disagreement_rejected displaced 113 152 154 Su).
  - apply sample_blocks; try (vm_compute; reflexivity). decide_le.
  - apply (file_in_end displaced 0). vm_compute. reflexivity.
  - split; decide_le.
  - vm_compute. reflexivity.
  - decide_le.
  - vm_compute. reflexivity.
  - unfold below. vm_compute. reflexivity.
  - vm_compute. reflexivity.
  - vm_compute. discriminate.
Qed.
(** Only 19 global variables for two materials. *)
Definition few_globals : dbuf := sample_with (sample_settings ++ [(18, 19)]) [sample_file2].
Example C40_globals_example : supported few_globals /\ exists pl, open_buffer few_globals = OK pl /\ pl_err pl = None /\ pl_states pl = [].
Proof.
  assert (Su : supported few_globals) by prove_supported. split; [exact Su|].
  apply (C40_globals_refuted few_globals 113 152 154 Su).
  - apply sample_blocks; try (vm_compute; reflexivity). decide_le.
  - apply (file_in_end few_globals 0). vm_compute. reflexivity.
  - split; decide_le.
  - vm_compute. reflexivity.
  - split; vm_compute; reflexivity.
Qed.
Print Assumptions C53_finds_family.
Print Assumptions C53_control_data.
Print Assumptions C39_tables.
Print Assumptions C40_state_tables.
Print Assumptions C40_disagreement_rejected.
Print Assumptions C40_globals_refuted.
Print Assumptions C54_states.
Print Assumptions C54_states_apart.
Print Assumptions C54_last_state_refuted.

(** ** C51: undefined behaviour while opening *)
(** A plot that consists of one file only. *)
Theorem C51_single_file_refuted : forall b titles hdr_end q, supported b ->
  blocks b (marker_pos b + 1) 0 hdr_end titles -> file_end b (hdr_end - 1) q false -> open_buffer b = UB.
Proof. intros b titles hdr_end q Su. apply open_single. exact Su. Qed.
(** The data ends inside of the control words. *)
Theorem C51_short_control_refuted : forall b, sound_family b -> aligned b -> d_err b = None ->
  (has b 11 -> wd b 11 = 1 \/ wd b 11 = 1001) -> total b <= 64 * d_ws b -> open_buffer b = UB.
Proof. intros b So Al Er Ty T. apply open_bad; auto. left. unfold below. lia. Qed.
(** EXTRA announces less than the 18 words that are always read. *)
Theorem C51_extra_refuted : forall b, sound_family b -> aligned b -> d_err b = None ->
  (has b 11 -> wd b 11 = 1 \/ wd b 11 = 1001) -> 0 < wd b 57 < 18 -> open_buffer b = UB.
Proof. intros b So Al Er Ty X. apply open_bad; auto. Qed.
Definition single : dbuf := sample_with sample_settings [].
Example C51_single_example : supported single /\ open_buffer single = UB /\ total single = 616.
Proof.
  assert (Su : supported single) by prove_supported. split; [exact Su|]. split; [|vm_compute; reflexivity]. apply (C51_single_file_refuted single 113 152 154 Su).
  - apply sample_blocks; try (vm_compute; reflexivity). decide_le.
  - apply (file_in_end single 0). vm_compute. reflexivity.
Qed.
Print Assumptions C51_single_file_refuted.
Print Assumptions C51_short_control_refuted.
Print Assumptions C51_extra_refuted.
