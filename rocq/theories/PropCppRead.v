(** * Property C104: D3plot's readers return objects that own everything, or throw *)
From Coq Require Import Permutation.
From Verif Require Import CBase BinModel D3BufModel D3BufSpec D3Model D3Spec D3OpenProofs D3ReadModel D3ReadSpec D3ReadProofs D3PartModel D3PartSpec PropD3Read PropD3Part D3Rich CppPartNodesModel CppTitleModel CppArrayModel CppArrayProofs OwnModel ReadMemModel ReadMemSpec ReadMemProofs ReadRoomProofs PropReadMem PropCppTitle CppReadModel CppReadSpec CppReadProofs.
Open Scope nat_scope.

Theorem C104_ids : forall h pl, counts_ok pl ->
  alike (or_throw (read_node_ids pl)) (cpp_read_node_ids h pl) (gives_object h) /\
  alike (or_throw (read_solid_element_ids pl)) (cpp_read_solid_element_ids h pl) (gives_object h) /\
  alike (or_throw (read_beam_element_ids pl)) (cpp_read_beam_element_ids h pl) (gives_object h) /\
  alike (or_throw (read_shell_element_ids pl)) (cpp_read_shell_element_ids h pl) (gives_object h) /\
  alike (or_throw (read_thick_shell_element_ids pl)) (cpp_read_thick_shell_element_ids h pl) (gives_object h) /\
  alike (or_throw (read_part_ids pl)) (cpp_read_part_ids h pl) (gives_object h).
Proof.
  intros h pl C. destruct (node_ids_reader pl C) as (K1 & A1), (solid_ids_reader pl C) as (K2 & A2), (beam_ids_reader pl C) as (K3 & A3), (shell_ids_reader pl C) as (K4 & A4), (thick_shell_ids_reader pl C) as (K5 & A5), (read_part_ids_reader pl C) as (K6 & A6).
  repeat split; eapply wrap_ok; eauto.
Qed.
Theorem C104_elements : forall h pl, counts_ok pl ->
  alike (or_throw (read_solid_elements pl)) (cpp_read_solid_elements h pl) (gives_object h) /\
  alike (or_throw (read_thick_shell_elements pl)) (cpp_read_thick_shell_elements h pl) (gives_object h) /\
  alike (or_throw (read_beam_elements pl)) (cpp_read_beam_elements h pl) (gives_object h) /\
  alike (or_throw (read_shell_elements pl)) (cpp_read_shell_elements h pl) (gives_object h).
Proof.
  intros h pl C. destruct (solids_reader pl C) as (K1 & A1), (thick_shells_reader pl C) as (K2 & A2), (beams_reader pl C) as (K3 & A3), (shells_reader pl C) as (K4 & A4).
  repeat split; eapply wrap_ok; eauto.
Qed.
Theorem C104_titles : forall h pl,
  alike (cpp_read_title pl) (cpp_read_title_mem h pl) (gives_object h) /\ alike (cpp_read_part_titles pl) (cpp_read_part_titles_mem h pl) (gives_objects h).
Proof. intros h pl. split; [apply cpp_title_ok|apply cpp_part_titles_ok]. Qed.
Theorem C104_times : forall h pl, alike (or_throw (read_all_time pl)) (cpp_read_all_time h pl) (gives_object h).
Proof. exact cpp_times_ok. Qed.
Theorem C104_vectors : forall h pl state k,
  alike (or_throw (node_data pl state k)) (cpp_read_node_data h pl state k) (gives_values h) /\
  alike (or_throw (node_words pl state k)) (cpp_read_node_words h pl state k) (gives_values h).
Proof.
  intros h pl state k. split.
  - apply wrap_values; [intros e o; apply node_data_err|apply node_data_mem_ok].
  - apply wrap_values; [intros e o; apply node_words_err|apply node_words_mem_ok].
Qed.
(** The vectors of all states; the full claim would be about every plot. *)
Theorem C104_rows_partial : forall h pl k, few_nodes pl ->
  alike (or_throw (read_all_node_data pl k)) (cpp_read_all_node_data h pl k) (gives_rows h (Z.to_nat (pl_cd pl NUMNP * 3)) (length (pl_states pl))).
Proof. exact cpp_rows_ok. Qed.
Theorem C104_no_states_refuted : forall h pl k, pl_states pl = [] ->
  exists h' b, cpp_read_all_node_data h pl k = OK (h', clear pl, Returned ([], [])) /\ length h <= b /\ alive h' b.
Proof. exact cpp_rows_leak. Qed.

(** ** All element ids *)
(** An error of the last table read (the thick shells) with no ids of the others. *)
Theorem C104_all_ids_partial : forall h pl, counts_ok pl ->
  (forall e l, read_all_element_ids pl = OK (e, l) -> pl_err e <> None -> l = []) ->
  alike (or_throw (read_all_element_ids pl)) (cpp_read_all_element_ids h pl) (gives_object h).
Proof.
  intros h pl C K. pose proof (read_all_element_ids_mem_ok h pl C) as R. unfold cpp_read_all_element_ids, wrap, guard, or_throw.
  destruct (read_all_element_ids pl) as [[e l]| |], (read_all_element_ids_mem h pl) as [[[h' e'] [l' p]]| |]; cbn [bind alike gives_array] in R |- *; try contradiction; auto.
  destruct R as (-> & -> & N & L). specialize (K _ _ eq_refl). destruct (pl_err e) as [x|] eqn:Ex; cbn.
  - rewrite (proj2 N (K ltac:(discriminate))) in L. repeat (split; [reflexivity|]). apply leaves_none, L.
  - eexists. split; [reflexivity|]. split; [reflexivity|]. split; [reflexivity|]. split; [exact L|]. apply destroy_owner, L.
Qed.
Theorem C104_all_ids_leak_refuted : forall h pl e l x, counts_ok pl -> read_all_element_ids pl = OK (e, l) -> pl_err e = Some x -> l <> [] ->
  throws_and_leaks h e x (cpp_read_all_element_ids h pl).
Proof. intros h pl e l x C E Ex Nn. eapply wrap_leaks; [apply read_all_element_ids_mem_ok; exact C|exact E|exact Ex|exact Nn]. Qed.

(** ** Parts *)
Theorem C104_part : forall h pl k, counts_ok pl -> alike (or_throw (read_part pl k)) (cpp_read_part h pl k) (gives_part_object h).
Proof. intros h pl k C. apply guard_part; [apply read_part_error|apply read_part_mem_ok, C]. Qed.
Theorem C104_part_by_id : forall h pl id ids, counts_ok pl -> alike (or_throw (read_part_by_id pl id ids)) (cpp_read_part_by_id h pl id ids) (gives_part_object h).
Proof. intros h pl id ids C. apply guard_part; [apply read_part_by_id_error|apply read_part_by_id_mem_ok, C]. Qed.

(** ** Non-vacuity *)
(** The file is cut at word [n] after it was opened. *)
Definition cut (n : nat) (pl : plot) : plot :=
  with_buf pl {| d_files := map (fun f => {| f_bytes := firstn (4 * n) (f_bytes f); f_size := f_size f; f_ok := f_ok f |}) (d_files (pl_buf pl)); d_ws := d_ws (pl_buf pl); d_err := d_err (pl_buf pl) |}.
Definition kind {A B} (show : A -> B) (m : res (heap * plot * outcome A)) : res (bool * option B * list nat) :=
  do ' (h, _, o) <- m; OK (match o with Throws _ => true | Returned _ => false end, match o with Returned x => Some (show x) | Throws _ => None end, live_blocks h).
(** Part 1: four arrays live, in the object; part 2 has no elements. *)
Example C104_part_case : on_rich (fun pl => kind (fun x => p_shell_ids (fst x)) (cpp_read_part [] pl 1)) = OK (false, Some [31%Z], [8; 9; 18; 19]) /\
  on_rich (fun pl => kind (fun x => p_shell_ids (fst x)) (cpp_read_part [] pl 2)) = OK (true, None, []).
Proof. split; vm_compute; reflexivity. Qed.
(** The velocities of the two states of two nodes: one block, owned by the first array. *)
Example C104_rows_case : on_rich (fun pl => kind (fun x => map (option_map (fun a => (a_data a, a_size a, a_del a))) (snd x)) (cpp_read_all_node_data [] pl K_STATE_NODE_VEL)) =
  OK (false, Some [Some (Some (1, 0), 6, true); Some (Some (1, 6), 6, false)], [1]).
Proof. vm_compute. reflexivity. Qed.
(** The ids of all types; without the ids of the thick shells, the last of the file, an
    exception, and the array of the others (block 8) is lost. *)
Example C104_all_ids_case : on_rich (fun pl => kind fst (cpp_read_all_element_ids [] pl)) = OK (false, Some [21; 31; 51; 61]%Z, [11]) /\
  on_rich (fun pl => kind fst (cpp_read_all_element_ids [] (cut (Z.to_nat (i_elt rich3)) pl))) = OK (true, None, [8]).
Proof. split; vm_compute; reflexivity. Qed.
Lemma cut_counts n pl : counts_ok pl -> counts_ok (cut n pl).
Proof. intros C f I. exact (C f I). Qed.
(** The hypotheses of C104_all_ids_leak_refuted, of the plot that was cut. *)
Example C104_leak_case : on_rich (fun pl => do ' (e, l) <- read_all_element_ids (cut (Z.to_nat (i_elt rich3)) pl); OK (pl_err e, l)) = OK (Some P_words, [21; 31; 51]%Z) /\
  (exists pl, opened rich3 148 [189; 358]%Z pl /\ counts_ok (cut (Z.to_nat (i_elt rich3)) pl)).
Proof. split; [vm_compute; reflexivity|]. destruct rich3_opened as (pl & O). exists pl. split; [exact O|]. apply cut_counts. exact (C102_counts _ _ _ _ O). Qed.
Example C104_ids_case : on_rich (fun pl => kind (fun x => (fst x, a_size (snd x))) (cpp_read_node_ids [] pl)) = OK (false, Some ([11; 12]%Z, 2), [0]) /\
  on_rich (fun pl => kind fst (cpp_read_node_ids [] (cut 10 pl))) = OK (true, None, []).
Proof. split; vm_compute; reflexivity. Qed.
Example C104_titles_case : (do pl <- open_buffer rich_titled; kind (fun x => (fst x, a_size (snd x))) (cpp_read_title_mem [] pl)) = OK (false, Some (bs "ab", 2), [0]) /\
  (do pl <- open_buffer rich_parts; kind (map (fun x => (fst x, a_size (snd x), a_data (snd x)))) (cpp_read_part_titles_mem [] pl)) = OK (false, Some [(bs "ab", 2, Some (1, 0)); (bs "a", 1, Some (2, 0))], [1; 2]).
Proof. split; vm_compute; reflexivity. Qed.
Example C104_few_case : exists pl, opened rich3 148 [189; 358]%Z pl /\ few_nodes pl.
Proof. destruct rich3_opened as (pl & O). exists pl. split; [exact O|]. pose proof (opened_view _ _ _ _ O) as V. unfold few_nodes. rewrite (v_cd _ _ _ _ V). split; vm_compute; [discriminate|reflexivity]. Qed.

Print Assumptions C104_ids.
Print Assumptions C104_elements.
Print Assumptions C104_titles.
Print Assumptions C104_times.
Print Assumptions C104_vectors.
Print Assumptions C104_rows_partial.
Print Assumptions C104_all_ids_partial.
Print Assumptions C104_all_ids_leak_refuted.
Print Assumptions C104_part.
Print Assumptions C104_part_by_id.
