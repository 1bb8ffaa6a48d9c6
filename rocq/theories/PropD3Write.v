(** * Property C100: a d3plot that was written is read back *)
From Verif Require Import CBase CBaseFacts BinModel D3BufModel D3BufSpec D3BufProofs D3Model D3Spec D3CurProofs D3OpenProofs D3SectProofs D3StateProofs D3ReadModel D3ReadSpec D3ReadProofs D3ElemModel D3ElemSpec D3ElemProofs D3LayerProofs D3ShellProofs D3ShellReadProofs D3BeamProofs D3MeanProofs PropD3Open PropD3Read PropD3Elem D3WriteSpec D3WriteProofs.
Open Scope Z_scope.

Lemma is_opened m pl : model_wf m -> open_plot m pl -> opened (written m) (the_titles m) (the_states m) pl.
Proof.
  intros Wf (pl0 & e & Q & _ & E). split; [apply p_supported; exact Wf|]. split; [apply p_regular; exact Wf|]. split; [apply p_layout; exact Wf|]. exists pl0, e. auto.
Qed.
Lemma open_without_error m pl0 : model_wf m -> open_buffer (written m) = OK pl0 -> pl_err pl0 = None.
Proof.
  intros Wf Q. destruct (C53_control_data _ _ _ (p_supported m Wf) (p_regular m Wf) (p_layout m Wf)) as (pl & Q2 & E & _). congruence.
Qed.
Lemma gives_returns A m (r : res (plot * A)) x : model_wf m -> gives (written m) (the_titles m) (the_states m) r x -> returns m r x.
Proof.
  intros Wf (pl & Q & E & (_ & _ & _ & pl0 & e & Q0 & E0)). exists pl. split; [exact Q|]. split; [exact E|]. exists pl0, e. split; [exact Q0|]. split; [apply (open_without_error m pl0 Wf Q0)|exact E0].
Qed.
Lemma seen_shows A M1 M2 V m (see1 : M1 -> M2 -> A -> option V) r views : model_wf m -> gives_seen (written m) (the_titles m) (the_states m) see1 r views -> shows m see1 r views.
Proof. intros Wf (l & m1 & m2 & G & E). exists l, m1, m2. split; [apply (gives_returns _ _ _ _ Wf G)|exact E]. Qed.

(** ** Opening *)
(** The files root, root01, root02, ... are opened without an error, with either
    size of a word, however the states are distributed. *)
Theorem C100_open : forall m fs root, model_wf m -> text_title m -> family_of fs root (written_files m) ->
  exists pl, d3plot_open fs root = OK pl /\ pl_err pl = None /\ open_plot m pl.
Proof.
  intros m fs root Wf Tt F. destruct (C53_control_data _ _ _ (p_supported m Wf) (p_regular m Wf) (p_layout m Wf)) as (pl & Q & E & _).
  exists pl. split; [|split; [exact E|]].
  - rewrite <- Q. apply (C53_finds_family fs root (written_files m) (dm_ws m) F).
    + apply (p_supported m Wf).
    + change (cval (written m) IA = 0 \/ cval (written m) IA = 1). rewrite (cv_ia m Wf). destruct (dm_has m Acceleration); auto.
    + apply (not_plausible m Wf Tt).
  - exists pl, (pl_err pl). split; [exact Q|]. split; [exact E|]. destruct pl; reflexivity.
Qed.
(** As many states as were written. *)
Theorem C100_states : forall m pl, model_wf m -> open_plot m pl -> length (pl_states pl) = length (all_states m).
Proof.
  intros m pl Wf (pl0 & e & Q & _ & ->). destruct (C54_states _ _ _ (p_supported m Wf) (p_regular m Wf) (p_layout m Wf)) as (pl1 & Q1 & _ & S). rewrite Q in Q1. injection Q1 as <-.
  change (pl_states (with_err pl0 e)) with (pl_states pl0). rewrite S. clear S Q. generalize (states_lie m Wf). generalize (the_states m) (all_states m). induction 1 as [|x y l l' _ _ IH]; cbn [length]; [reflexivity|]. rewrite IH. reflexivity.
Qed.

(** ** The geometry *)
Theorem C100_ids : forall m pl, model_wf m -> open_plot m pl ->
  returns m (read_node_ids pl) (dm_node_ids m) /\ returns m (read_solid_element_ids pl) (dm_solid_ids m) /\ returns m (read_beam_element_ids pl) (dm_beam_ids m) /\
  returns m (read_shell_element_ids pl) (dm_shell_ids m) /\ returns m (read_thick_shell_element_ids pl) (dm_thick_ids m) /\ returns m (read_part_ids pl) (map fst (dm_parts m)).
Proof.
  intros m pl Wf O. pose proof (is_opened m pl Wf O) as V. destruct (r_ids m Wf) as (R1 & R2 & R3 & R4 & R5 & R6). destruct (C56_ids _ _ _ _ V (p_has_ids m Wf)) as (G1 & G2 & G3 & G4 & G5).
  rewrite R1 in G1. rewrite R2 in G2. rewrite R3 in G3. rewrite R4 in G4. rewrite R5 in G5.
  repeat (split; [apply (gives_returns _ _ _ _ Wf); assumption|]). apply (gives_returns _ _ _ _ Wf). rewrite <- R6. apply (C57_part_ids _ _ _ _ V (p_has_ids m Wf) (id_flag m Wf)).
  rewrite (cv_nmmat m Wf), (p_nmmat m Wf). pose proof (counts m Wf). lia.
Qed.
(** Nodes and part of every element, zero based. *)
Theorem C100_elements : forall m pl, model_wf m -> open_plot m pl ->
  returns m (read_solid_elements pl) (dm_solids m) /\ returns m (read_thick_shell_elements pl) (dm_thick m) /\ returns m (read_beam_elements pl) (dm_beams m) /\ returns m (read_shell_elements pl) (dm_shells m).
Proof.
  intros m pl Wf O. pose proof (is_opened m pl Wf O) as V. destruct (r_cons m Wf) as (R1 & R2 & R3 & R4).
  pose proof (C41_solids _ _ _ _ V) as G1. pose proof (C41_thick_shells _ _ _ _ V) as G2. pose proof (C41_shells _ _ _ _ V) as G3. pose proof (C41_beams _ _ _ _ V) as G4.
  rewrite R1 in G1. rewrite R2 in G2. rewrite R3 in G3. rewrite R4 in G4. repeat split; apply (gives_returns _ _ _ _ Wf); assumption.
Qed.
(** The titles: the bytes of their words. *)
Theorem C100_titles : forall m pl, model_wf m -> open_plot m pl ->
  returns m (read_title pl) (flat_map (bytes_of (Z.to_nat (dm_ws m))) (dm_title m)) /\ returns m (read_epoch_run_time pl) (s64 (dm_run_time m)) /\
  returns m (read_part_titles pl) (map (fun p => flat_map (bytes_of (Z.to_nat (dm_ws m))) (snd p)) (dm_parts m)).
Proof.
  intros m pl Wf O. pose proof (is_opened m pl Wf O) as V. destruct (C57_title_run_time _ _ _ _ V) as (G1 & G2). rewrite (r_title m Wf) in G1. rewrite (r_run_time m Wf) in G2.
  split; [apply (gives_returns _ _ _ _ Wf G1)|]. split; [apply (gives_returns _ _ _ _ Wf G2)|]. apply (gives_returns _ _ _ _ Wf). rewrite <- (r_titles m Wf).
  apply (C57_part_titles _ _ _ _ V); [|rewrite (cv_nmmat m Wf), (r_titles_count m Wf); pose proof (counts m Wf); lia].
  unfold the_titles. rewrite (id_size m Wf). pose proof (counts m Wf). pose proof (len_nonneg _ (geometry m)). lia.
Qed.

(** ** The states *)
(** State [k], with the numbers that were written (as doubles). *)
Theorem C100_time : forall m pl k s, model_wf m -> open_plot m pl -> nth_error (all_states m) k = Some s ->
  exists t, returns m (read_time pl k) (Some t) /\ same_number (written m) (ds_time s) t.
Proof.
  intros m pl k s Wf O E. pose proof (is_opened m pl Wf O) as V. destruct (state_at m Wf k s E) as (p & N & H). destruct (C48_time _ _ _ _ k p V N) as (t & G & S). exists t.
  split; [apply (gives_returns _ _ _ _ Wf G)|]. rewrite (r_time m Wf k s p E H) in S. exact S.
Qed.
Theorem C100_all_times : forall m pl, model_wf m -> open_plot m pl -> exists l, returns m (read_all_time pl) l /\ Forall2 (fun s t => same_number (written m) (ds_time s) t) (all_states m) l.
Proof.
  intros m pl Wf O. pose proof (is_opened m pl Wf O) as V. destruct (C48_all_times _ _ _ _ V) as (l & G & S). exists l. split; [apply (gives_returns _ _ _ _ Wf G)|].
  clear G V O. revert S. pose proof (fun k s p => r_time m Wf k s p) as R. pose proof (states_lie m Wf) as F. revert l.
  assert (Go : forall ps ss, Forall2 (fun p s => lies (concat (root_words m :: map (state_file_words m) (dm_files m))) p (state_out m s)) ps ss -> (forall s, In s ss -> In s (all_states m)) ->
    forall l, Forall2 (fun p t => same_number (written m) (wd (written m) p) t) ps l -> Forall2 (fun s t => same_number (written m) (ds_time s) t) ss l).
  { induction 1 as [|p s ps ss H _ IH]; intros I l S; inversion S as [|? t ? l' S1 S2]; subst; constructor; [|apply IH; [intros x J; apply I; right; exact J|exact S2]].
    destruct (In_nth_error _ _ (I s (or_introl eq_refl))) as (k & Ek). rewrite <- (R k s p Ek H). exact S1. }
  apply Go; [exact F|auto].
Qed.
Theorem C100_vector : forall fadd m pl k s v, model_wf m -> open_plot m pl -> nth_error (all_states m) k = Some s -> dm_has m v = true ->
  exists l, returns m (read_vector fadd pl k v) (Some l) /\ Forall2 (same_number (written m)) (ds_vector s v) l.
Proof.
  intros fadd m pl k s v Wf O E Hv. pose proof (is_opened m pl Wf O) as V. destruct (state_at m Wf k s E) as (p & N & H). destruct (r_vector m Wf k s p E H v Hv) as (An & R).
  destruct (C55_vector fadd _ _ _ pl v k p V An N) as (l & G & S). exists l. split; [apply (gives_returns _ _ _ _ Wf G)|]. rewrite R in S. exact S.
Qed.
(** The doubles of the element values are the numbers that were written. *)
Theorem C100_numbers : forall m l, model_wf m -> Forall (is_word (dm_ws m)) l -> Forall2 (same_number (written m)) l (dbls (dm_ws m) l).
Proof.
  intros m l Wf F. unfold dbls. induction F as [|x l X _ IH]; cbn [map]; constructor; [|exact IH].
  unfold same_number, number, to_double. change (d_ws (written m)) with (dm_ws m). unfold is_word in X. destruct (mw_ws m Wf) as [E|E]; rewrite E in *.
  - change (4 =? 4) with true. cbv iota. split; [|discriminate]. destruct (float_value x) as [v|] eqn:Ev; [apply widen_value; assumption|apply widen_special; assumption].
  - split; [reflexivity|auto].
Qed.
Theorem C100_solids : forall m pl k s, model_wf m -> open_plot m pl -> nth_error (all_states m) k = Some s -> dm_solids m <> [] ->
  returns m (read_solids_state pl k) (Some (map (fun x => solid_read (dm_ws m) (fst x)) (ds_solids s))).
Proof.
  intros m pl k s Wf O E Ne. pose proof (is_opened m pl Wf O) as V. destruct (state_at m Wf k s E) as (p & N & H). apply (gives_returns _ _ _ _ Wf). rewrite <- (r_solids m Wf k s p E H).
  apply (C45_solids _ _ _ _ k p _ V N (p_istrn m Wf)).
  - rewrite (cv_el8 m Wf). destruct (dm_solids m) as [|x l]; [congruence|]. rewrite len_cons. pose proof (len_nonneg _ l). lia.
  - rewrite (p_solid_words m Wf), (cv_nv3d m Wf). reflexivity.
Qed.
Theorem C100_shells : forall m pl k s, model_wf m -> open_plot m pl -> nth_error (all_states m) k = Some s -> dm_shells m <> [] ->
  shows m see_shell (read_shells_state pl k) (map (shell_read (dm_ws m)) (ds_shells s)).
Proof.
  intros m pl k s Wf O E Ne. pose proof (is_opened m pl Wf O) as V. destruct (state_at m Wf k s E) as (p & N & H). apply (seen_shows _ _ _ _ _ _ _ _ Wf). rewrite <- (r_shells m Wf k s p E H).
  apply (C46_shells _ _ _ _ k p _ V N (p_istrn m Wf)).
  - rewrite (cv_el4 m Wf). destruct (dm_shells m) as [|x l]; [congruence|]. rewrite len_cons. pose proof (len_nonneg _ l). lia.
  - unfold strain_flag. destruct (dm_strain m); auto.
  - rewrite (p_ips m Wf). pose proof (sizes m Wf). lia.
  - rewrite (p_shell_words m Wf), (cv_nv2d m Wf). reflexivity.
Qed.
Theorem C100_thick_shells : forall m pl k s, model_wf m -> open_plot m pl -> nth_error (all_states m) k = Some s -> dm_thick m <> [] ->
  shows m see_thick (read_thick_shells_state pl k) (map (thick_read (dm_ws m)) (ds_thick s)).
Proof.
  intros m pl k s Wf O E Ne. pose proof (is_opened m pl Wf O) as V. destruct (state_at m Wf k s E) as (p & N & H). apply (seen_shows _ _ _ _ _ _ _ _ Wf). rewrite <- (r_thicks m Wf k s p E H).
  apply (C58_thick_shells _ _ _ _ k p _ V N (p_istrn m Wf)).
  - rewrite (cv_elt m Wf). destruct (dm_thick m) as [|x l]; [congruence|]. rewrite len_cons. pose proof (len_nonneg _ l). lia.
  - rewrite (p_ips m Wf), (cv_neips m Wf). pose proof (sizes m Wf). destruct (mw_thick_hist m Wf Ne); lia.
  - rewrite (p_thick_words m Wf), (cv_nv3dt m Wf). reflexivity.
Qed.
Theorem C100_beams : forall m pl k s, model_wf m -> open_plot m pl -> nth_error (all_states m) k = Some s -> dm_beams m <> [] ->
  shows m see_beam (read_beams_state pl k) (map (beam_read (dm_ws m)) (ds_beams s)).
Proof.
  intros m pl k s Wf O E Ne. pose proof (is_opened m pl Wf O) as V. destruct (state_at m Wf k s E) as (p & N & H). apply (seen_shows _ _ _ _ _ _ _ _ Wf). rewrite <- (r_beams m Wf k s p E H).
  apply (C59_beams _ _ _ _ k p _ V N).
  - rewrite (cv_el2 m Wf). destruct (dm_beams m) as [|x l]; [congruence|]. rewrite len_cons. pose proof (len_nonneg _ l). lia.
  - pose proof (sizes m Wf). lia.
  - rewrite (cv_0 m Wf NEIPB) by (cbn [In]; tauto). lia.
  - rewrite (cv_0 m Wf NEIPB) by (cbn [In]; tauto). rewrite (cv_nv1d m Wf). unfold nv1d. ring.
Qed.

(** ** An example: every kind of element, two nodes, two parts, three states in two files *)
Definition ex_point (i : Z) : surface_view := {| v_sigma := [i; i + 1; i + 2; i + 3; i + 4; i + 5]; v_plastic := i + 6; v_history := [] |}.
Definition ex_strain (i : Z) : list Z := [i; i + 1; i + 2; i + 3; i + 4; i + 5].
Definition ex_state (t : Z) : dstate :=
  {| ds_time := t; ds_globals := repeat 7 34; ds_vector := fun v => match v with Coordinates => [1; 2; 3; 4; 5; t] | Velocity => [] | Acceleration => [t; 8; 9; 10; 11; 12] end;
     ds_solids := [({| so_sigma := ex_strain 20; so_plastic := t; so_epsilon := ex_strain 30 |}, [40; 41])];
     ds_beams := [{| y_resultants := ex_strain 50; y_ips := [([60; 61; 62; 63; t], [])]; y_avg := []; y_min := []; y_max := [] |}];
     ds_shells := [{| w_ips := [ex_point 70; ex_point 80; ex_point 90; ex_point t]; w_inner := ex_strain 100; w_outer := ex_strain 110; w_bending := [1; 2; 3]; w_shear := [4; 5]; w_normal := [6; 7; 8];
                      w_thickness := 9; w_vars := [10; 11]; w_energy := t |}];
     ds_thick := [{| x_ips := [ex_point 120; ex_point 130; ex_point t; ex_point 140]; x_inner := ex_strain 150; x_outer := ex_strain 160 |}] |}.
Definition ex_model : dmodel :=
  {| dm_ws := 4; dm_title := repeat 0x20202020 10; dm_run_time := 1700000000; dm_coords := [1; 2; 3; 4; 5; 6]; dm_node_ids := [101; 205];
     dm_solids := [{| c_nodes := [0; 1; 0; 1; 0; 1; 0; 1]; c_mat := 1 |}]; dm_solid_ids := [11];
     dm_beams := [{| bc_nodes := [0; 1]; bc_orient := 0; bc_null := [0; 0]; bc_mat := 0 |}]; dm_beam_ids := [12];
     dm_shells := [{| c_nodes := [0; 1; 1; 0]; c_mat := 0 |}]; dm_shell_ids := [13];
     dm_thick := [{| c_nodes := [1; 1; 1; 1; 0; 0; 0; 0]; c_mat := 1 |}]; dm_thick_ids := [14];
     dm_parts := [(5, repeat 0x41414141 18); (9, repeat 0x42424242 18)]; dm_mats := (1, 1, 1, 1); dm_nglob := 34;
     dm_has := fun v => match v with Velocity => false | _ => true end; dm_strain := true; dm_solid_hist := 2; dm_ips := 4; dm_ip_hist := 0; dm_beam_ips := 1; dm_pad := [0; 0; 0];
     dm_files := [([ex_state 0; ex_state 1], [3; 4]); ([ex_state 2], [])] |}.
Lemma words_dec ws l : forallb (fun v => (0 <=? v) && (v <? 2 ^ (8 * ws))) l = true -> Forall (is_word ws) l.
Proof. intros H. rewrite forallb_forall in H. apply Forall_forall. intros x I. specialize (H x I). unfold is_word. apply andb_prop in H as [A B]. apply Z.leb_le in A. apply Z.ltb_lt in B. lia. Qed.
Lemma ex_state_wf t : In t [0; 1; 2] -> state_wf ex_model (ex_state t).
Proof.
  intros I. cbn [In] in I. destruct I as [<- |[<- |[<- |[]]]]; (constructor; [apply words_dec; vm_compute; reflexivity|vm_compute; discriminate|reflexivity|intros []; reflexivity|..]);
    (split; [reflexivity|]); repeat constructor.
Qed.
Definition ex_disk (n : list Z) : option dfile :=
  if list_eq_dec Z.eq_dec n (bs "d3plot") then nth_error (written_files ex_model) 0
  else if list_eq_dec Z.eq_dec n (bs "d3plot01") then nth_error (written_files ex_model) 1
  else if list_eq_dec Z.eq_dec n (bs "d3plot02") then nth_error (written_files ex_model) 2 else None.
Example C100_example : model_wf ex_model /\ text_title ex_model /\ length (all_states ex_model) = 3%nat /\ family_of ex_disk (bs "d3plot") (written_files ex_model).
Proof.
  split; [|split; [discriminate|split; [reflexivity|]]].
  - constructor; try (left; reflexivity); try reflexivity.
    + split; [repeat constructor; vm_compute; try discriminate; reflexivity|reflexivity].
    + split; [repeat constructor; vm_compute; try discriminate; reflexivity|reflexivity].
    + split; [repeat constructor; vm_compute; try discriminate; reflexivity|reflexivity].
    + split; [repeat constructor; vm_compute; try discriminate; reflexivity|reflexivity].
    + split; [discriminate|repeat constructor].
    + apply words_dec. vm_compute. reflexivity.
    + cbn. lia.
    + intros _. right. reflexivity.
    + cbn. lia.
    + split; [discriminate|]. repeat (constructor; [split; [repeat (constructor; [apply ex_state_wf; cbn [In]; tauto|]); constructor|apply words_dec; reflexivity]|]). constructor.
    + split; [vm_compute; reflexivity|]. split; [unfold small; cbn; lia|]. split; [vm_compute; reflexivity|]. split; [unfold small; cbn; lia|vm_compute; reflexivity].
  - split; [vm_compute; lia|]. split.
    + intros i f E. destruct i as [|[|[|i]]]; [exact E|exact E|exact E|]. exfalso. cbn in E. destruct i; discriminate.
    + intros _. vm_compute. reflexivity.
Qed.

Print Assumptions C100_open.
Print Assumptions C100_states.
Print Assumptions C100_ids.
Print Assumptions C100_elements.
Print Assumptions C100_titles.
Print Assumptions C100_time.
Print Assumptions C100_all_times.
Print Assumptions C100_vector.
Print Assumptions C100_numbers.
Print Assumptions C100_solids.
Print Assumptions C100_shells.
Print Assumptions C100_thick_shells.
Print Assumptions C100_beams.
