(** * Properties C41, C47, C48, C55, C56, C57: the readers of an opened d3plot *)
From Verif Require Import CBase CBaseFacts BinModel D3BufModel D3BufSpec D3BufProofs D3Model D3Spec D3CurProofs D3OpenProofs D3SectProofs D3StateProofs D3BadProofs D3Sample D3ReadModel D3ReadSpec D3ReadProofs.
Open Scope Z_scope.

Lemma gives_clear {A} b titles states pl (r : res (plot * A)) x : opened b titles states pl -> r = OK (clear pl, x) -> gives b titles states r x.
Proof. intros O E. exists (clear pl). split; [exact E|]. split; [reflexivity|]. apply opened_err. exact O. Qed.
Lemma reports_err {A} b titles states pl (r : res (plot * A)) e x : opened b titles states pl -> r = OK (with_err pl (Some e), x) -> reports b titles states r e x.
Proof. intros O E. exists (with_err pl (Some e)). split; [exact E|]. split; [reflexivity|]. apply opened_err. exact O. Qed.
Lemma same_double b i : supported b -> same_number b (wd b i) (to_double (d_ws b) (wd b i)).
Proof.
  intros Su. pose proof (wd_bound b (su_sound b Su) (su_bytes b Su) i) as B. unfold same_number, number, to_double. destruct (su_sound b Su) as (_ & _ & [W|W]); rewrite W in *.
  - change (4 =? 4) with true. change (256 ^ 4) with (2 ^ 32) in B. split; [|discriminate]. destruct (float_value (wd b i)) as [v|] eqn:E; [apply widen_value; assumption|apply widen_special; assumption].
  - split; [reflexivity|auto].
Qed.
Lemma same_doubles b pos n : supported b -> Forall2 (same_number b) (stretch b pos n) (map (to_double (d_ws b)) (stretch b pos n)).
Proof. intros Su. unfold stretch. generalize (seq 0 (Z.to_nat n)). induction l; cbn [map]; constructor; [apply same_double; exact Su|assumption]. Qed.

(** ** C41: connectivity *)
Theorem C41_solids : forall b titles states pl, opened b titles states pl ->
  gives b titles states (read_solid_elements pl) (each (cval b NEL8) (con_spec b (g_el8 b) 8)).
Proof. intros b titles states pl O. apply (gives_clear _ _ _ _ _ _ O), (solids_con_ok b titles states pl (opened_view _ _ _ _ O)). Qed.
Theorem C41_thick_shells : forall b titles states pl, opened b titles states pl ->
  gives b titles states (read_thick_shell_elements pl) (each (cval b NELT) (con_spec b (g_elt b) 8)).
Proof. intros b titles states pl O. apply (gives_clear _ _ _ _ _ _ O), (thick_shells_con_ok b titles states pl (opened_view _ _ _ _ O)). Qed.
Theorem C41_shells : forall b titles states pl, opened b titles states pl ->
  gives b titles states (read_shell_elements pl) (each (cval b NEL4) (con_spec b (g_el4 b) 4)).
Proof. intros b titles states pl O. apply (gives_clear _ _ _ _ _ _ O), (shells_con_ok b titles states pl (opened_view _ _ _ _ O)). Qed.
Theorem C41_beams : forall b titles states pl, opened b titles states pl ->
  gives b titles states (read_beam_elements pl) (each (cval b NEL2) (beam_con_spec b (g_el2 b))).
Proof. intros b titles states pl O. apply (gives_clear _ _ _ _ _ _ O), (beams_con_ok b titles states pl (opened_view _ _ _ _ O)). Qed.

(** ** C48: times *)
Theorem C48_time : forall b titles states pl s p, opened b titles states pl -> nth_error states s = Some p ->
  exists t, gives b titles states (read_time pl s) (Some t) /\ same_number b (wd b p) t.
Proof.
  intros b titles states pl s p O N. exists (to_double (d_ws b) (wd b p)). split; [|apply same_double; apply O].
  apply (gives_clear _ _ _ _ _ _ O), (time_ok b titles states pl (opened_view _ _ _ _ O) s p N).
Qed.
Theorem C48_outside : forall b titles states pl s, opened b titles states pl -> (length states <= s)%nat ->
  reports b titles states (read_time pl s) P_state None.
Proof. intros b titles states pl s O L. apply (reports_err _ _ _ _ _ _ _ O), (time_out b titles states pl (opened_view _ _ _ _ O) s L). Qed.
Theorem C48_all_times : forall b titles states pl, opened b titles states pl ->
  exists l, gives b titles states (read_all_time pl) l /\ Forall2 (fun p t => same_number b (wd b p) t) states l.
Proof.
  intros b titles states pl O. exists (map (fun p => to_double (d_ws b) (wd b p)) states). split.
  - apply (gives_clear _ _ _ _ _ _ O), (all_times_ok b titles states pl (opened_view _ _ _ _ O)).
  - assert (Su : supported b) by apply O. clear O. induction states; cbn [map]; constructor; auto. apply same_double. exact Su.
Qed.

(** ** C55: nodal vectors *)
Section Vectors.
Variables (fadd : Z -> Z -> Z) (b : dbuf) (titles : Z) (states : list Z).
(** d3plot_read_node_coordinates, d3plot_read_node_velocity, d3plot_read_node_acceleration *)
Definition read_vector (pl : plot) (s : nat) (v : vector) : res (plot * option (list Z)) :=
  match v with Coordinates => read_node_coordinates fadd pl s | Velocity => read_node_velocity pl s | Acceleration => read_node_acceleration pl s end.
Definition kind_of (v : vector) : dkind := match v with Coordinates => K_STATE_NODE_COORDS | Velocity => K_STATE_NODE_VEL | Acceleration => K_STATE_NODE_ACC end.
Lemma kind_vec v : is_vec (kind_of v).
Proof. unfold is_vec. destruct v; cbn; auto. Qed.
Lemma coords_plain pl s x : opened b titles states pl -> (forall r, x = Some r -> cval b IU = 1) -> forall pl', node_data pl s K_STATE_NODE_COORDS = OK (pl', x) -> pl_cd pl' = pl_cd pl -> read_node_coordinates fadd pl s = OK (pl', x).
Proof.
  intros O F pl' Q C. unfold read_node_coordinates. rewrite Q. cbn [bind]. destruct x as [d|]; [|reflexivity].
  rewrite C, (cd_of b titles states pl (opened_view _ _ _ _ O) IU I), (F d eq_refl). reflexivity.
Qed.
(** An announced vector is returned: all its words, for every state. *)
Theorem C55_vector : forall pl v s p, opened b titles states pl -> announced b v = 1 -> nth_error states s = Some p ->
  exists l, gives b titles states (read_vector pl s v) (Some l) /\ Forall2 (same_number b) (stretch b (p + vector_place b v) (3 * cval b NUMNP)) l.
Proof.
  intros pl v s p O F N. exists (map (to_double (d_ws b)) (stretch b (p + vector_place b v) (3 * cval b NUMNP))). split; [|apply same_doubles; apply O].
  apply (gives_clear _ _ _ _ _ _ O). destruct v; cbn [read_vector].
  - apply coords_plain; [exact O|intros _ _; exact F| |reflexivity]. apply (node_data_ok b titles states pl (opened_view _ _ _ _ O) K_STATE_NODE_COORDS s p (kind_vec Coordinates) F N).
  - apply (node_data_ok b titles states pl (opened_view _ _ _ _ O) K_STATE_NODE_VEL s p (kind_vec Velocity) F N).
  - apply (node_data_ok b titles states pl (opened_view _ _ _ _ O) K_STATE_NODE_ACC s p (kind_vec Acceleration) F N).
Qed.
(** A vector that is not announced, or a state that does not exist: an error. *)
Theorem C55_absent : forall pl v s, opened b titles states pl -> announced b v = 0 -> states <> [] ->
  reports b titles states (read_vector pl s v) P_node_data None.
Proof.
  intros pl v s O F N. apply (reports_err _ _ _ _ _ _ _ O). destruct v; cbn [read_vector].
  - apply coords_plain; [exact O|discriminate| |reflexivity]. apply (node_data_absent b titles states pl (opened_view _ _ _ _ O) K_STATE_NODE_COORDS s (kind_vec Coordinates) F N).
  - apply (node_data_absent b titles states pl (opened_view _ _ _ _ O) K_STATE_NODE_VEL s (kind_vec Velocity) F N).
  - apply (node_data_absent b titles states pl (opened_view _ _ _ _ O) K_STATE_NODE_ACC s (kind_vec Acceleration) F N).
Qed.
Theorem C55_outside : forall pl v s, opened b titles states pl -> announced b v = 1 -> states <> [] -> (length states <= s)%nat ->
  reports b titles states (read_vector pl s v) P_state None.
Proof.
  intros pl v s O F N L. apply (reports_err _ _ _ _ _ _ _ O). destruct v; cbn [read_vector].
  - apply coords_plain; [exact O|discriminate| |reflexivity]. apply (node_data_out b titles states pl (opened_view _ _ _ _ O) K_STATE_NODE_COORDS s (kind_vec Coordinates) F N L).
  - apply (node_data_out b titles states pl (opened_view _ _ _ _ O) K_STATE_NODE_VEL s (kind_vec Velocity) F N L).
  - apply (node_data_out b titles states pl (opened_view _ _ _ _ O) K_STATE_NODE_ACC s (kind_vec Acceleration) F N L).
Qed.
(** All states at once: the concatenation. *)
Theorem C55_all_states : forall pl v, opened b titles states pl -> announced b v = 1 ->
  exists l, gives b titles states (read_all_node_data pl (kind_of v)) (Some l) /\
    Forall2 (same_number b) (flat_map (fun p => stretch b (p + vector_place b v) (3 * cval b NUMNP)) states) l.
Proof.
  intros pl v O F. exists (map (to_double (d_ws b)) (flat_map (fun p => stretch b (p + vector_place b v) (3 * cval b NUMNP)) states)). split.
  - apply (gives_clear _ _ _ _ _ _ O). pose proof (opened_view _ _ _ _ O) as V.
    assert (F' : cval b (vec_flag (kind_of v)) = 1) by (destruct v; exact F). assert (Ev : vec_off b (kind_of v) = vector_place b v) by (destruct v; reflexivity).
    destruct (vec_facts b titles states pl V (kind_of v) (kind_vec v) F') as (O1 & O2).
    apply (all_node_words_ok b titles states pl V); [|lia|lia].
    intros N. rewrite (vec_ptr b titles states pl V (kind_of v) (kind_vec v) N), F'. change (1 =? 0) with false. cbn match. exact Ev.
  - assert (Su : supported b) by apply O. clear O. induction states as [|p l IH]; cbn [flat_map map]; [constructor|]. rewrite map_app. apply Forall2_app; [apply same_doubles; exact Su|exact IH].
Qed.
(** The all states variants do not check that the vector exists: they return
    other words of the states (from the time on) without an error. *)
Theorem C55_all_states_absent_refuted : forall pl v, opened b titles states pl -> announced b v = 0 -> states <> [] -> 3 * cval b NUMNP <= state_size b ->
  exists l, gives b titles states (read_all_node_data pl (kind_of v)) (Some l) /\ Forall2 (same_number b) (flat_map (fun p => stretch b p (3 * cval b NUMNP)) states) l.
Proof.
  intros pl v O F N Le. exists (map (to_double (d_ws b)) (flat_map (fun p => stretch b (p + 0) (3 * cval b NUMNP)) states)). split.
  - apply (gives_clear _ _ _ _ _ _ O). pose proof (opened_view _ _ _ _ O) as V. apply (all_node_words_ok b titles states pl V); [|lia|lia].
    intros _. assert (F' : cval b (vec_flag (kind_of v)) = 0) by (destruct v; exact F). rewrite (vec_ptr b titles states pl V (kind_of v) (kind_vec v) N), F'. reflexivity.
  - assert (Su : supported b) by apply O. clear O N. induction states as [|p l IH]; cbn [flat_map map]; [constructor|]. rewrite map_app, Z.add_0_r. apply Forall2_app; [apply same_doubles; exact Su|exact IH].
Qed.
End Vectors.

(** ** C47: displacements *)
(** A plot that announces displacements (IU = 2) is never opened: with nodes and
    at least one state, opening reports an error. *)
Theorem C47_displacements_refuted : forall b titles hdr_end q, supported b ->
  blocks b (marker_pos b + 1) 0 hdr_end titles -> file_end b (hdr_end - 1) q true -> has b q -> is_eof (d_ws b) (wd b q) = false ->
  global_minimum b <= cval b NGLBV -> s_therm b < 2 ^ 60 -> below b (q + s_therm b) ->
  cval b IU = 2 -> (cval b IV = 0 \/ cval b IV = 1) -> (cval b IA = 0 \/ cval b IA = 1) -> 0 < cval b NUMNP ->
  exists pl, open_buffer b = OK pl /\ pl_err pl = Some P_nodedata.
Proof.
  intros b titles hdr_end q Su Bl Fe H E G1 G2 G3 U V A N. pose proof (nonneg b Su NGLBV ltac:(discriminate) ltac:(discriminate)) as Ng.
  assert (Ev : s_therm b = 1 + cval b NGLBV + 3 * cval b NUMNP * (flag (cval b IU) + flag (cval b IV) + flag (cval b IA))) by (unfold s_therm, s_acc, s_vel, s_coords; ring). rewrite U in Ev. change (flag 2) with 1 in Ev.
  apply (open_bad_flags b Su titles hdr_end q Bl Fe H E G1); [exact G2|exact G3| |].
  - assert (2 ^ 60 = 1152921504606846976) by reflexivity. assert (2 ^ 64 = 18446744073709551616) by reflexivity. rewrite U. destruct V as [Q1|Q1], A as [Q2|Q2]; rewrite Q1, Q2 in *; change (flag 0) with 0 in *; change (flag 1) with 1 in *; lia.
  - rewrite U. unfold s_therm, s_acc, s_vel. rewrite U. destruct V as [Q1|Q1], A as [Q2|Q2]; rewrite Q1, Q2 in *; change (flag 0) with 0; change (flag 1) with 1; change (flag 2) with 1; lia.
Qed.
(** In a plot that could be opened the coordinates are those of the file, for
    every state and call (C55_vector with [Coordinates]); nothing is added. *)
Theorem C47_coordinates_partial : forall fadd b titles states pl s p, opened b titles states pl -> cval b IU <> 0 -> nth_error states s = Some p ->
  cval b IU = 1 /\ exists l, gives b titles states (read_node_coordinates fadd pl s) (Some l) /\ Forall2 (same_number b) (stretch b (p + s_coords b) (3 * cval b NUMNP)) l.
Proof.
  intros fadd b titles states pl s p O U N. assert (F : cval b IU = 1) by (destruct O as (_ & [Fl _ _] & _); destruct (Fl IU ltac:(cbn; auto)); [contradiction|assumption]).
  split; [exact F|]. apply (C55_vector fadd b titles states pl Coordinates s p O F N).
Qed.

(** ** C56: ids *)
Theorem C56_ids : forall b titles states pl, opened b titles states pl -> has_ids b = true ->
  gives b titles states (read_node_ids pl) (stretch b (ids_start b) (cval b NUMNP)) /\
  gives b titles states (read_solid_element_ids pl) (stretch b (i_el8 b) (cval b NEL8)) /\
  gives b titles states (read_beam_element_ids pl) (stretch b (i_el2 b) (cval b NEL2)) /\
  gives b titles states (read_shell_element_ids pl) (stretch b (i_el4 b) (cval b NEL4)) /\
  gives b titles states (read_thick_shell_element_ids pl) (stretch b (i_elt b) (cval b NELT)).
Proof.
  intros b titles states pl O Hi. pose proof (opened_view _ _ _ _ O) as V. repeat split; apply (gives_clear _ _ _ _ _ _ O).
  - apply (node_ids_ok b titles states pl V Hi). - apply (solid_ids_ok b titles states pl V Hi). - apply (beam_ids_ok b titles states pl V Hi).
  - apply (shell_ids_ok b titles states pl V Hi). - apply (thick_shell_ids_ok b titles states pl V Hi).
Qed.
(** Without an id section the ids are the first words of the file: the title. *)
Theorem C56_no_ids_refuted : forall b titles states pl, opened b titles states pl -> has_ids b = false ->
  gives b titles states (read_node_ids pl) (stretch b 0 (cval b NUMNP)).
Proof. intros b titles states pl O Hi. apply (gives_clear _ _ _ _ _ _ O), (no_ids_node b titles states pl (opened_view _ _ _ _ O) Hi). Qed.

(** ** C57: parts and titles *)
Theorem C57_part_ids : forall b titles states pl, opened b titles states pl -> has_ids b = true -> part_ids_present b = true -> cval b NMMAT <= 3 * ids_nmmat b ->
  gives b titles states (read_part_ids pl) (stretch b (i_parts b) (cval b NMMAT)).
Proof. intros b titles states pl O Hi Pp Le. apply (gives_clear _ _ _ _ _ _ O), (part_ids_ok b titles states pl (opened_view _ _ _ _ O) Hi Pp Le). Qed.
Theorem C57_part_ids_of_titles : forall b titles states pl, opened b titles states pl -> has_ids b && part_ids_present b = false -> titles <> 0 -> 0 < cval b NMMAT <= wd b (titles - 1) ->
  gives b titles states (read_part_ids pl) (each (cval b NMMAT) (fun i => wd b (title_entry b titles i))).
Proof. intros b titles states pl O Hi Nz Le. apply (gives_clear _ _ _ _ _ _ O), (part_ids_titles_ok b titles states pl (opened_view _ _ _ _ O) Hi Nz Le). Qed.
Theorem C57_no_part_ids : forall b titles states pl, opened b titles states pl -> has_ids b && part_ids_present b = false -> titles = 0 ->
  reports b titles states (read_part_ids pl) P_part_ids [].
Proof.
  intros b titles states pl O Hi Tz. apply (reports_err _ _ _ _ _ _ _ O). pose proof (opened_view _ _ _ _ O) as V. unfold read_part_ids. change (pl_ptr (clear pl)) with (pl_ptr pl).
  rewrite (v_ptr _ _ _ _ V K_PART_IDS (or_introl eq_refl)), (v_ptr _ _ _ _ V K_PART_TITLES (or_introl eq_refl)). cbn [table]. unfold ids_ptr.
  assert (E0 : (if has_ids b then if part_ids_present b then i_parts b else 0 else 0) = 0) by (destruct (has_ids b); [destruct (part_ids_present b); [discriminate Hi|]|]; reflexivity).
  rewrite E0, Tz. reflexivity.
Qed.
Theorem C57_part_titles : forall b titles states pl, opened b titles states pl -> titles <> 0 -> 0 < cval b NMMAT <= wd b (titles - 1) ->
  gives b titles states (read_part_titles pl) (each (cval b NMMAT) (title_bytes b titles)).
Proof. intros b titles states pl O Nz Le. apply (gives_clear _ _ _ _ _ _ O), (part_titles_ok b titles states pl (opened_view _ _ _ _ O) Nz Le). Qed.
Theorem C57_title_run_time : forall b titles states pl, opened b titles states pl ->
  gives b titles states (read_title pl) (bytes_from b 0 (10 * d_ws b)) /\ gives b titles states (read_epoch_run_time pl) (s64 (wd b 10)).
Proof.
  intros b titles states pl O. pose proof (opened_view _ _ _ _ O) as V. split; apply (gives_clear _ _ _ _ _ _ O); [apply (title_ok b titles states pl V)|apply (run_time_ok b titles states pl V)].
Qed.
(** Without parts an uninitialised pointer is closed. *)
Theorem C57_no_parts_refuted : forall b titles states pl, opened b titles states pl -> cval b NMMAT = 0 -> read_part_titles pl = UB.
Proof.
  intros b titles states pl O N. unfold read_part_titles. change (pl_cd (clear pl)) with (pl_cd pl). rewrite (cd_of b titles states pl (opened_view _ _ _ _ O) NMMAT I), N. reflexivity.
Qed.

(** ** Non-vacuity *)
Definition displaced_plot : dbuf := sample_with (sample_settings ++ [(20, 2)]) [sample_file2].
Lemma sample_opened : exists pl, opened sample 113 [154; 229] pl.
Proof.
  destruct (open_live sample sample_supported sample_regular _ _ sample_layout) as (pl & Q & _). exists (with_err pl None).
  split; [exact sample_supported|]. split; [exact sample_regular|]. split; [exact sample_layout|]. exists pl, None. auto.
Qed.
Example C41_example : exists pl, opened sample 113 [154; 229] pl /\
  each (cval sample NEL8) (con_spec sample (g_el8 sample) 8) = [{| c_nodes := [0; 1; 0; 1; 0; 1; 0; 1]; c_mat := 0 |}] /\
  each (cval sample NEL4) (con_spec sample (g_el4 sample) 4) = [{| c_nodes := [0; 1; 1; 0]; c_mat := 1 |}] /\ each (cval sample NEL2) (beam_con_spec sample (g_el2 sample)) = [].
Proof. destruct sample_opened as (pl & O). exists pl. split; [exact O|]. repeat split; vm_compute; reflexivity. Qed.
(** 1.5 as float and as double; the smallest positive float; infinity. *)
Example C48_example : widen 1069547520 = 4609434218613702656 /\ float_value 1069547520 = Some (3 * 2 ^ 1073) /\ double_value 4609434218613702656 = Some (3 * 2 ^ 1073) /\
  float_value 1 = Some (2 ^ 925) /\ double_value (widen 1) = Some (2 ^ 925) /\ double_value (widen (2 ^ 31 + 1)) = Some (- 2 ^ 925) /\ double_value (widen (255 * 2 ^ 23)) = None.
Proof. repeat split; vm_compute; reflexivity. Qed.
Example C55_example : announced sample Coordinates = 1 /\ announced sample Velocity = 1 /\ announced sample Acceleration = 0 /\ 3 * cval sample NUMNP <= state_size sample /\
  stretch sample (229 + vector_place sample Velocity) (3 * cval sample NUMNP) = [2027; 2028; 2029; 2030; 2031; 2032].
Proof. split; [vm_compute; reflexivity|]. split; [vm_compute; reflexivity|]. split; [vm_compute; reflexivity|]. split; [decide_le|vm_compute; reflexivity]. Qed.
Example C56_example : has_ids sample = true /\ stretch sample (ids_start sample) (cval sample NUMNP) = [11; 12] /\ stretch sample (i_el8 sample) (cval sample NEL8) = [21] /\ stretch sample (i_el4 sample) (cval sample NEL4) = [31].
Proof. repeat split; vm_compute; reflexivity. Qed.
Example C57_example : part_ids_present sample = true /\ cval sample NMMAT = 2 /\ ids_nmmat sample = 2 /\ wd sample (113 - 1) = 2 /\ stretch sample (i_parts sample) (cval sample NMMAT) = [41; 42] /\
  each (cval sample NMMAT) (fun i => wd sample (title_entry sample 113 i)) = [41; 42] /\ nth_error (title_bytes sample 113 1) 4 = Some 66.
Proof. repeat split; vm_compute; reflexivity. Qed.
Example C47_example : supported displaced_plot /\ cval displaced_plot IU = 2 /\ 0 < cval displaced_plot NUMNP /\ exists pl, open_buffer displaced_plot = OK pl /\ pl_err pl = Some P_nodedata.
Proof.
  assert (Su : supported displaced_plot) by prove_supported. split; [exact Su|]. split; [vm_compute; reflexivity|]. split; [vm_compute; reflexivity|].
  apply (C47_displacements_refuted displaced_plot 113 152 154 Su).
  - apply sample_blocks; try (vm_compute; reflexivity). decide_le.
  - apply (file_in_end displaced_plot 0). vm_compute. reflexivity.
  - split; decide_le.
  - vm_compute. reflexivity.
  - decide_le.
  - vm_compute. reflexivity.
  - unfold below. vm_compute. reflexivity.
  - vm_compute. reflexivity.
  - right. vm_compute. reflexivity.
  - left. vm_compute. reflexivity.
  - vm_compute. reflexivity.
Qed.
Print Assumptions C41_solids.
Print Assumptions C41_thick_shells.
Print Assumptions C41_shells.
Print Assumptions C41_beams.
Print Assumptions C48_time.
Print Assumptions C48_outside.
Print Assumptions C48_all_times.
Print Assumptions C55_vector.
Print Assumptions C55_absent.
Print Assumptions C55_outside.
Print Assumptions C55_all_states.
Print Assumptions C55_all_states_absent_refuted.
Print Assumptions C47_displacements_refuted.
Print Assumptions C47_coordinates_partial.
Print Assumptions C56_ids.
Print Assumptions C56_no_ids_refuted.
Print Assumptions C57_part_ids.
Print Assumptions C57_part_ids_of_titles.
Print Assumptions C57_no_part_ids.
Print Assumptions C57_part_titles.
Print Assumptions C57_title_run_time.
Print Assumptions C57_no_parts_refuted.
