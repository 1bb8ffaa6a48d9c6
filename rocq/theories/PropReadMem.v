(** * Property C102: the readers of a d3plot keep no memory *)
From Verif Require Import CBase BinModel D3BufModel D3BufSpec D3Model D3Spec D3OpenProofs D3ReadModel D3ReadSpec D3ReadProofs D3PartModel PropD3Read PropD3Part D3Rich CppArrayModel OwnModel ReadMemModel ReadMemSpec ReadMemProofs ReadRoomProofs.
Open Scope nat_scope.

(** What a call has left is what [h_free_all] of the returned pointers gives back. *)
Theorem C102_freed : forall h h' ps, leaves h h' ps -> exists h'', h_free_all h' ps = OK h'' /\ leaves_nothing h h''.
Proof. intros h h' ps L. apply (leaves_free_all ps h h' []). rewrite app_nil_r. exact L. Qed.
(** The counts of a plot that was opened. *)
Theorem C102_counts : forall b titles states pl, opened b titles states pl -> counts_ok pl.
Proof.
  intros b titles states pl O f I. pose proof (opened_view _ _ _ _ O) as V. rewrite (v_cd _ _ _ _ V). pose proof (v_su _ _ _ _ V) as Su.
  cbn [In] in I. destruct I as [<-|[<-|[<-|[<-|[<-|[<-|[]]]]]]]; cbn [control_value]; try (apply (nonneg b Su); discriminate). exact (su_nel8 b Su).
Qed.

(** ** Arrays *)
Theorem C102_ids : forall h pl, counts_ok pl ->
  alike (read_node_ids pl) (read_node_ids_mem h pl) (gives_array h) /\
  alike (read_solid_element_ids pl) (read_solid_element_ids_mem h pl) (gives_array h) /\
  alike (read_beam_element_ids pl) (read_beam_element_ids_mem h pl) (gives_array h) /\
  alike (read_shell_element_ids pl) (read_shell_element_ids_mem h pl) (gives_array h) /\
  alike (read_thick_shell_element_ids pl) (read_thick_shell_element_ids_mem h pl) (gives_array h) /\
  alike (read_part_ids pl) (read_part_ids_mem h pl) (gives_array h).
Proof.
  intros h pl C. split; [apply (proj2 (node_ids_reader pl C))|]. split; [apply (proj2 (solid_ids_reader pl C))|]. split; [apply (proj2 (beam_ids_reader pl C))|].
  split; [apply (proj2 (shell_ids_reader pl C))|]. split; [apply (proj2 (thick_shell_ids_reader pl C))|]. apply (proj2 (read_part_ids_reader pl C)).
Qed.
Theorem C102_all_ids : forall h pl, counts_ok pl -> alike (read_all_element_ids pl) (read_all_element_ids_mem h pl) (gives_array h).
Proof. exact read_all_element_ids_mem_ok. Qed.
Theorem C102_elements : forall h pl,
  alike (read_solid_elements pl) (read_solid_elements_mem h pl) (gives_array h) /\
  alike (read_thick_shell_elements pl) (read_thick_shell_elements_mem h pl) (gives_array h) /\
  alike (read_beam_elements pl) (read_beam_elements_mem h pl) (gives_array h) /\
  alike (read_shell_elements pl) (read_shell_elements_mem h pl) (gives_array h).
Proof. intros h pl. repeat (split; [apply read_con_mem_ok|]). apply read_con_mem_ok. Qed.
Theorem C102_titles : forall h pl,
  alike (read_title pl) (read_title_mem h pl) (gives_or_null h) /\ alike (read_part_titles pl) (read_part_titles_mem h pl) (gives_strings h).
Proof. intros h pl. split; [apply read_title_mem_ok|apply read_part_titles_mem_ok]. Qed.
Theorem C102_times : forall h pl, alike (read_all_time pl) (read_all_time_mem h pl) (gives_or_null h).
Proof. exact read_all_time_mem_ok. Qed.
Theorem C102_vectors : forall h pl k,
  (forall state, alike (node_words pl state k) (node_words_mem h pl state k) (gives_block h)) /\
  (forall state, alike (node_data pl state k) (node_data_mem h pl state k) (gives_block h)) /\
  alike (read_all_node_data pl k) (read_all_node_data_mem h pl k) (gives_block h).
Proof. intros h pl k. split; [intros; apply node_words_mem_ok|]. split; [intros; apply node_data_mem_ok|apply read_all_node_data_mem_ok]. Qed.

Theorem C102_velocity_acceleration : forall h pl state,
  alike (read_node_velocity pl state) (read_node_velocity_mem h pl state) (gives_block h) /\
  alike (read_node_acceleration pl state) (read_node_acceleration_mem h pl state) (gives_block h).
Proof. intros h pl state. split; apply C102_vectors. Qed.

(** ** The sizes of the returned blocks *)
(** A returned block has exactly as many elements as there are values (a title: room
    for the padded text and its end). *)
Theorem C102_room : forall h pl h' e p,
  (forall l, In (OK (h', e, (l, Some p))) [read_node_ids_mem h pl; read_solid_element_ids_mem h pl; read_beam_element_ids_mem h pl; read_shell_element_ids_mem h pl;
      read_thick_shell_element_ids_mem h pl; read_part_ids_mem h pl] -> room h' p (length l)) /\
  (forall l, counts_ok pl -> read_all_element_ids_mem h pl = OK (h', e, (l, Some p)) -> room h' p (length l)) /\
  (forall l, In (OK (h', e, (l, Some p))) [read_solid_elements_mem h pl; read_thick_shell_elements_mem h pl; read_shell_elements_mem h pl] -> room h' p (length l)) /\
  (forall l, read_beam_elements_mem h pl = OK (h', e, (l, Some p)) -> room h' p (length l)) /\
  (forall l, read_title_mem h pl = OK (h', e, Some (l, p)) -> room h' p (Z.to_nat (10 * d_ws (pl_buf pl) + 1))) /\
  (forall l ps, read_part_titles_mem h pl = OK (h', e, Some (l, ps, p)) -> room h' p (Z.to_nat (pl_cd pl NMMAT)) /\ forall q, In (Some q) ps -> room h' q 73) /\
  (forall l, read_all_time_mem h pl = OK (h', e, Some (l, p)) -> room h' p (length l)) /\
  (forall l state k, few_nodes pl -> node_words_mem h pl state k = OK (h', e, Some (l, p)) -> room h' p (length l)) /\
  (forall l state k, few_nodes pl -> node_data_mem h pl state k = OK (h', e, Some (l, p)) -> room h' p (length l)) /\
  (forall l k, few_nodes pl -> read_all_node_data_mem h pl k = OK (h', e, Some (l, p)) -> room h' p (length l)).
Proof.
  intros h pl h' e p.
  split; [intros l [I|[I|[I|[I|[I|[I|[]]]]]]]; solve [exact (read_ids_room _ _ _ _ _ _ _ _ I)|exact (read_part_ids_room _ _ _ _ _ _ I)]|].
  split; [intros l C E; exact (read_all_element_ids_room _ _ _ _ _ _ C E)|].
  split; [intros l [I|[I|[I|[]]]]; exact (read_con_room _ _ _ _ _ _ _ _ _ _ I)|].
  split; [intros l E; exact (read_con_room _ _ _ _ _ _ _ _ _ _ E)|].
  split; [intros l; apply read_title_room|]. split; [intros l ps; apply read_part_titles_room|]. split; [intros l; apply read_all_time_room|].
  split; [intros l state k F E; apply (node_words_room _ _ _ _ _ _ _ _ F E)|]. split; [intros l state k F E; exact (node_data_room _ _ _ _ _ _ _ _ F E)|]. intros l k F E. exact (read_all_node_data_room _ _ _ _ _ _ _ F E).
Qed.
Theorem C102_part_room : forall h pl part_index h' e p ps, counts_ok pl -> read_part_mem h pl part_index = OK (h', e, p, ps) ->
  Forall2 (fun q n => match q with Some q => room h' q n | None => n = 0 end) ps (sizes p).
Proof. exact read_part_room. Qed.
Theorem C102_nodes_room : forall h pl p node_ids t h' e l q, counts_ok pl -> part_get_node_ids2_mem h pl p node_ids t = OK (h', e, Some (l, q)) -> room h' q (length l).
Proof. exact part_get_node_ids2_room. Qed.

(** ** Parts *)
Theorem C102_part : forall h pl part_index, counts_ok pl -> alike (read_part pl part_index) (read_part_mem h pl part_index) (gives_part h).
Proof. exact read_part_mem_ok. Qed.
Theorem C102_part_by_id : forall h pl part_id ids, counts_ok pl -> alike (read_part_by_id pl part_id ids) (read_part_by_id_mem h pl part_id ids) (gives_part h).
Proof. exact read_part_by_id_mem_ok. Qed.
Theorem C102_part_freed : forall h pl part_index e p, counts_ok pl -> read_part pl part_index = OK (e, p) ->
  exists h' ps h'', read_part_mem h pl part_index = OK (h', e, p, ps) /\ free_part h' ps = OK h'' /\ leaves_nothing h h''.
Proof.
  intros h pl k e p C E. pose proof (read_part_mem_ok h pl k C) as R. rewrite E in R. destruct (read_part_mem h pl k) as [[[[h' e'] p'] ps]| |]; cbn in R; try contradiction.
  destruct R as (-> & -> & L & _). destruct (C102_freed _ _ _ L) as (h'' & F & L'). exists h', ps, h''. split; [reflexivity|]. split; [exact F|exact L'].
Qed.

(** ** Nodes of a part *)
Theorem C102_nodes_partial : forall h pl p t, counts_ok pl -> connectivity_passed p t ->
  (forall node_ids, alike (part_get_node_ids2 pl p node_ids t) (part_get_node_ids2_mem h pl p node_ids t) (gives_or_null h)) /\
  alike (part_get_node_indices2 pl p t) (part_get_node_indices2_mem h pl p t) (fun a b => let '(h', e, l, q) := b in e = fst a /\ l = snd a /\ leaves h h' [Some q]) /\
  alike (part_get_num_nodes2 pl p t) (part_get_num_nodes2_mem h pl p t) (fun a b => let '(h', e, n) := b in e = fst a /\ n = snd a /\ leaves_nothing h h').
Proof.
  intros h pl p t C P. split; [intros node_ids|split].
  - pose proof (part_get_node_ids2_mem_ok h pl p node_ids t C) as R. destruct (part_get_node_ids2 pl p node_ids t) as [[e l]| |], (part_get_node_ids2_mem h pl p node_ids t) as [[[h' e'] [[l' q]|]]| |]; cbn in R |- *; try contradiction; auto.
    destruct R as (-> & -> & ls & L & _ & N & _). rewrite (N P) in L. auto.
  - pose proof (part_get_node_indices2_mem_ok h pl p t C) as R. destruct (part_get_node_indices2 pl p t) as [[e l]| |], (part_get_node_indices2_mem h pl p t) as [[[[h' e'] l'] q]| |]; cbn in R |- *; try contradiction; auto.
    destruct R as (-> & -> & ls & L & _ & N & _). rewrite (N P) in L. auto.
  - pose proof (part_get_num_nodes2_mem_ok h pl p t C) as R. destruct (part_get_num_nodes2 pl p t) as [[e l]| |], (part_get_num_nodes2_mem h pl p t) as [[[h' e'] l']| |]; cbn in R |- *; try contradiction; auto.
    destruct R as (-> & -> & ls & L & _ & N & _). rewrite (N P) in L. auto.
Qed.
(** Connectivity that these functions read themselves is never freed: besides the
    result a block is left that no pointer the caller has leads to. *)
Theorem C102_nodes_leak_refuted : forall b titles states pl, opened b titles states pl -> (0 < cval b NEL8)%Z ->
  forall h p t, p_solid_ids p <> [] -> t_solid_ids t <> None -> t_solid_cons t = None ->
  (forall e n, part_get_num_nodes2 pl p t = OK (e, n) -> exists h' k, part_get_num_nodes2_mem h pl p t = OK (h', e, n) /\ length h <= k /\ alive h' k) /\
  (forall e l, part_get_node_indices2 pl p t = OK (e, l) -> exists h' q k, part_get_node_indices2_mem h pl p t = OK (h', e, l, q) /\ length h <= k /\ alive h' k /\ k <> fst q) /\
  (forall ids e l, part_get_node_ids2 pl p (Some ids) t = OK (e, l) -> exists h' q k, part_get_node_ids2_mem h pl p (Some ids) t = OK (h', e, Some (l, q)) /\ length h <= k /\ alive h' k /\ k <> fst q).
Proof.
  intros b titles states pl O N8 h p t A1 A2 A3. pose proof (C102_counts _ _ _ _ O) as C.
  assert (Rd : solids_read (clear pl) p t).
  { split; [exact A1|]. split; [exact A2|]. split; [exact A3|]. destruct (C41_solids _ _ _ _ (opened_err _ _ _ _ None O)) as (e & E & _).
    eexists _, _. split; [exact E|]. unfold each. destruct (Z.to_nat (cval b NEL8)) eqn:Z8; [lia|]. discriminate. }
  assert (Lk : forall h' q ls, leaves h h' (q ++ ls) -> ~ In None ls -> ls <> [] -> exists k, length h <= k /\ alive h' k /\ forall x, In (Some x) q -> k <> fst x).
  { intros h' q ls (_ & B & Cl & D & _) Nn Ne. destruct ls as [|[x|] ls]; [congruence| |exfalso; apply Nn; left; reflexivity].
    assert (I : In (fst x) (blocks (q ++ Some x :: ls))) by (rewrite blocks_app; apply in_or_app; right; left; reflexivity). exists (fst x). split; [apply Cl, I|]. split; [apply B; [apply Cl, I|exact I]|].
    intros y Iy Eq. rewrite blocks_app in D. cbn [blocks] in D. apply NoDup_remove_2 in D. apply D. apply in_or_app. left. rewrite Eq. clear - Iy. induction q as [|[z|] q IH]; [destruct Iy| |]; destruct Iy as [Q|I]; try discriminate; cbn [blocks].
    - injection Q as ->. left. reflexivity. - right. apply IH, I. - apply IH, I. }
  split; [|split].
  - intros e n E. pose proof (part_get_num_nodes2_mem_ok h pl p t C) as R. rewrite E in R. destruct (part_get_num_nodes2_mem h pl p t) as [[[h' e'] n']| |]; cbn in R; try contradiction.
    destruct R as (-> & -> & ls & L & Nn & _ & Ne). destruct (Lk h' [] ls L Nn (Ne Rd)) as (k & K1 & K2 & _). exists h', k. auto.
  - intros e n E. pose proof (part_get_node_indices2_mem_ok h pl p t C) as R. rewrite E in R. destruct (part_get_node_indices2_mem h pl p t) as [[[[h' e'] n'] q]| |]; cbn in R; try contradiction.
    destruct R as (-> & -> & ls & L & Nn & _ & Ne). destruct (Lk h' [Some q] ls L Nn (Ne Rd)) as (k & K1 & K2 & K3). exists h', q, k. split; [reflexivity|]. split; [exact K1|]. split; [exact K2|]. apply K3. left. reflexivity.
  - intros ids e l E. pose proof (part_get_node_ids2_mem_ok h pl p (Some ids) t C) as R. rewrite E in R. destruct (part_get_node_ids2_mem h pl p (Some ids) t) as [[[h' e'] [[l' q]|]]| |] eqn:Em; cbn in R; try contradiction.
    + destruct R as (-> & -> & ls & L & Nn & _ & Ne). destruct (Lk h' [Some q] ls L Nn (Ne ltac:(discriminate) Rd)) as (k & K1 & K2 & K3). exists h', q, k. split; [reflexivity|]. split; [exact K1|]. split; [exact K2|]. apply K3. left. reflexivity.
    + exfalso. unfold part_get_node_ids2_mem in Em. cbn [bind] in Em. change (pl_err (clear pl)) with (@None perr) in Em. cbv match in Em. destruct (part_nodes_mem _ _ _ _ _ _) as [[[[? ?] ?] ?]| |]; discriminate.
Qed.

(** ** Non-vacuity *)
Definition on_rich {A} (f : plot -> res A) : res A := do pl <- open_buffer rich3; f pl.
Definition live_blocks (h : heap) : list nat := filter (fun k => match nth_error h k with Some (Some _) => true | _ => false end) (seq 0 (length h)).
Definition solid_part : part := {| p_solid_ids := [21%Z]; p_thick_shell_ids := []; p_beam_ids := []; p_shell_ids := []; p_solid_indices := [0]; p_thick_shell_indices := []; p_beam_indices := []; p_shell_indices := [] |}.
Definition only_solid_ids : tables := {| t_solid_ids := Some [21%Z]; t_beam_ids := None; t_shell_ids := None; t_thick_shell_ids := None; t_solid_cons := None; t_beam_cons := None; t_shell_cons := None; t_thick_shell_cons := None |}.
(** The number of nodes of the part with the solid: 2 nodes, and block 1, the
    connectivity of the solids, is left. *)
Example C102_leak_case : on_rich (fun pl => do ' (h, _, n) <- part_get_num_nodes2_mem [] pl solid_part only_solid_ids; OK (n, live_blocks h)) = OK (2, [1]).
Proof. vm_compute. reflexivity. Qed.
(** Part 1 has a thick shell and a shell: four arrays are left. *)
Example C102_part_case : on_rich (fun pl => do ' (h, _, p, ps) <- read_part_mem [] pl 1; do h' <- free_part h ps; OK (p_thick_shell_ids p, p_shell_ids p, length (live_blocks h), live_blocks h')) = OK ([61%Z], [31%Z], 4, []).
Proof. vm_compute. reflexivity. Qed.
Definition solid_connectivity : tables :=
  {| t_solid_ids := None; t_beam_ids := None; t_shell_ids := None; t_thick_shell_ids := None;
     t_solid_cons := Some [{| c_nodes := [0; 1; 0; 1; 0; 1; 0; 1]; c_mat := 0 |}]%Z; t_beam_cons := None; t_shell_cons := None; t_thick_shell_cons := None |}.
Example C102_passed_case : connectivity_passed solid_part solid_connectivity /\
  on_rich (fun pl => do ' (h, _, n) <- part_get_num_nodes2_mem [] pl solid_part solid_connectivity; OK (n, live_blocks h)) = OK (2, []).
Proof. split; [cbn; repeat split; auto; right; discriminate|vm_compute; reflexivity]. Qed.
Example C102_case : exists pl, opened rich3 148 [189; 358]%Z pl /\ counts_ok pl /\ (0 < cval rich3 NEL8)%Z.
Proof. destruct rich3_opened as (pl & O). exists pl. split; [exact O|]. split; [exact (C102_counts _ _ _ _ O)|vm_compute; reflexivity]. Qed.

Print Assumptions C102_freed.
Print Assumptions C102_counts.
Print Assumptions C102_ids.
Print Assumptions C102_all_ids.
Print Assumptions C102_elements.
Print Assumptions C102_titles.
Print Assumptions C102_times.
Print Assumptions C102_vectors.
Print Assumptions C102_part.
Print Assumptions C102_part_by_id.
Print Assumptions C102_part_freed.
Print Assumptions C102_nodes_partial.
Print Assumptions C102_nodes_leak_refuted.
Print Assumptions C102_room.
Print Assumptions C102_part_room.
Print Assumptions C102_nodes_room.
