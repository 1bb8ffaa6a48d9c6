(** * Properties C42, C43, C44, C61: parts *)
From Coq Require Import Sorting.Permutation Sorting.Sorted.
From Verif Require Import CBase CBaseFacts SearchModel SearchSpec SearchProofs BinModel D3BufModel D3BufSpec D3Model D3Spec D3OpenProofs D3StateProofs D3Sample D3ReadModel D3ReadSpec D3ReadProofs PropD3Read D3LayerProofs D3PartModel D3PartSpec D3PartProofs D3Rich.
Open Scope Z_scope.

(** ** C42: the elements of a part *)
Lemma empty_ids b k : empty_part b k <-> p_solid_ids (part_of b k) = [] /\ p_thick_shell_ids (part_of b k) = [] /\ p_beam_ids (part_of b k) = [] /\ p_shell_ids (part_of b k) = [].
Proof.
  unfold empty_part, all_tables. cbn [part_of p_solid_ids p_thick_shell_ids p_beam_ids p_shell_ids]. unfold member_ids. split.
  - intros F. inversion F as [|? ? E1 F1]; subst. inversion F1 as [|? ? E2 F2]; subst. inversion F2 as [|? ? E3 F3]; subst. inversion F3 as [|? ? E4 F4]; subst. rewrite E1, E2, E3, E4. auto.
  - intros (E1 & E2 & E3 & E4). apply map_eq_nil in E1, E2, E3, E4. repeat constructor; assumption.
Qed.
Theorem C42_part : forall b titles states pl k, opened b titles states pl -> has_ids b = true -> part_index_ok b k -> ~ empty_part b k ->
  gives b titles states (read_part pl k) (part_of b k).
Proof.
  intros b titles states pl k O Hi K Ne. apply (gives_clear _ _ _ _ _ _ O). rewrite (read_part_ok b titles states pl k O Hi K). rewrite empty_ids in Ne.
  destruct (p_solid_ids (part_of b k)); [destruct (p_thick_shell_ids (part_of b k)); [destruct (p_beam_ids (part_of b k)); [destruct (p_shell_ids (part_of b k)); [exfalso; apply Ne; auto|]|]|]|]; reflexivity.
Qed.
Theorem C42_no_elements : forall b titles states pl k, opened b titles states pl -> has_ids b = true -> part_index_ok b k -> empty_part b k ->
  reports b titles states (read_part pl k) P_part no_part.
Proof.
  intros b titles states pl k O Hi K E. apply (reports_err _ _ _ _ _ _ _ O). rewrite (read_part_ok b titles states pl k O Hi K). destruct (proj1 (empty_ids b k) E) as (-> & -> & -> & ->). f_equal. f_equal.
  unfold empty_part, all_tables in E. inversion E as [|? ? E1 F1]; subst. inversion F1 as [|? ? E2 F2]; subst. inversion F2 as [|? ? E3 F3]; subst. inversion F3 as [|? ? E4 F4]; subst.
  unfold part_of, member_ids. rewrite E1, E2, E3, E4. reflexivity.
Qed.
(** What the specification says, element by element: element [i] is in the part
    exactly if its part word is [k + 1]; order and ids are those of the file. *)
Theorem C42_members : forall b t k,
  (forall i, In i (members b t k) <-> 0 <= i < e_num t /\ wd b (e_pos t + i * e_width t + e_width t - 1) = k + 1) /\ StronglySorted Z.lt (members b t k) /\
  member_ids b t k = map (fun i => wd b (e_ids t + i)) (members b t k).
Proof.
  intros b t k. split; [|split; [|reflexivity]].
  - intros i. rewrite members_in. unfold in_part. rewrite Z.eqb_eq. reflexivity.
  - rewrite members_seq. assert (G : forall n i, StronglySorted Z.lt (map Z.of_nat (filter (fun j => in_part b t k (Z.of_nat j)) (seq i n))) /\ Forall (fun x => Z.of_nat i <= x) (map Z.of_nat (filter (fun j => in_part b t k (Z.of_nat j)) (seq i n)))).
    { induction n as [|n IH]; intros i; [split; constructor|]. cbn [seq filter]. destruct (IH (S i)) as (A & B). destruct (in_part b t k (Z.of_nat i)); cbn [map].
      - split; [constructor; [exact A|eapply Forall_impl; [|exact B]; intros; cbn in *; lia]|constructor; [lia|eapply Forall_impl; [|exact B]; intros; cbn in *; lia]].
      - split; [exact A|eapply Forall_impl; [|exact B]; intros; cbn in *; lia]. }
    apply G.
Qed.

(** ** C61: parts by id *)
Definition by_id_ids (b : dbuf) (titles : Z) (states : list Z) (pl : plot) (arg : option (list Z)) (ids : list Z) : Prop :=
  arg = Some ids \/ (arg = None /\ gives b titles states (read_part_ids (clear pl)) ids).
Lemma by_id_start b titles states pl arg ids : opened b titles states pl -> by_id_ids b titles states pl arg ids -> ids <> [] ->
  exists pl', opened b titles states pl' /\ forall id, read_part_by_id pl id arg = (do index <- d3_word_binary_search ids 0 (length ids - 1) id; match index with None => OK (fail pl' P_part_id, no_part) | Some i => read_part pl' (Z.of_nat i) end).
Proof.
  intros O H N. destruct H as [-> | (-> & pl1 & Q & E & O1)].
  - exists (clear pl). split; [apply opened_err; exact O|]. intros id. unfold read_part_by_id. cbn [bind]. change (pl_err (clear pl)) with (@None perr). cbn match. destruct ids; [congruence|]. reflexivity.
  - exists pl1. split; [exact O1|]. intros id. unfold read_part_by_id. rewrite Q. cbn [bind]. rewrite E. destruct ids; [congruence|]. reflexivity.
Qed.
Theorem C61_by_id : forall b titles states pl arg ids id i, opened b titles states pl -> has_ids b = true -> by_id_ids b titles states pl arg ids -> words_strict ids ->
  Z.of_nat (length ids) < 2 ^ (8 * d_ws b) -> nth_error ids i = Some id -> ~ empty_part b (Z.of_nat i) -> gives b titles states (read_part_by_id pl id arg) (part_of b (Z.of_nat i)).
Proof.
  intros b titles states pl arg ids id i O Hi H S L N Ne. assert (i < length ids)%nat by (apply nth_error_Some; congruence). assert (Nn : ids <> []) by (destruct ids; [cbn in *; lia|discriminate]).
  destruct (by_id_start _ _ _ _ _ _ O H Nn) as (pl' & O' & Q). rewrite Q. destruct (word_search_iff ids id i Nn S) as ((_ & W) & _). rewrite (W N). cbn [bind]. apply C42_part; [exact O'|exact Hi| |exact Ne]. split; lia.
Qed.
Theorem C61_unknown : forall b titles states pl arg ids id, opened b titles states pl -> by_id_ids b titles states pl arg ids -> words_strict ids -> ids <> [] -> ~ In id ids ->
  reports b titles states (read_part_by_id pl id arg) P_part_id no_part.
Proof.
  intros b titles states pl arg ids id O H S Nn Ni. destruct (by_id_start _ _ _ _ _ _ O H Nn) as (pl' & O' & Q). rewrite Q. destruct (word_search_iff ids id 0 Nn S) as (_ & (_ & W)). rewrite (W Ni). cbn [bind].
  exists (fail pl' P_part_id). split; [reflexivity|]. split; [reflexivity|]. apply (opened_err _ _ _ pl' (Some P_part_id) O').
Qed.
Theorem C61_no_parts : forall b titles states pl arg id, opened b titles states pl -> by_id_ids b titles states pl arg [] ->
  reports b titles states (read_part_by_id pl id arg) P_no_parts no_part.
Proof.
  intros b titles states pl arg id O H. destruct H as [-> | (-> & pl1 & Q & E & O1)]; unfold read_part_by_id.
  - cbn [bind]. change (pl_err (clear pl)) with (@None perr). cbn match. eexists. split; [reflexivity|]. split; [reflexivity|]. apply (opened_err _ _ _ (clear pl) (Some P_no_parts)), opened_err, O.
  - rewrite Q. cbn [bind]. rewrite E. eexists. split; [reflexivity|]. split; [reflexivity|]. apply (opened_err _ _ _ pl1 (Some P_no_parts) O1).
Qed.
(** Part ids that are not ascending (as they may be in a file) are not found. *)
Theorem C61_unsorted_refuted : forall b titles states pl, opened b titles states pl ->
  reports b titles states (read_part_by_id pl 3 (Some [7; 5; 3])) P_part_id no_part.
Proof. intros b titles states pl O. eexists. split; [reflexivity|]. split; [reflexivity|]. apply (opened_err _ _ _ (clear pl) (Some P_part_id)), opened_err, O. Qed.

(** ** C43: the nodes of a part *)
Theorem C43_node_indices : forall b titles states pl k t, opened b titles states pl -> has_ids b = true -> distinct_ids b -> passed_tables b t ->
  exists l, gives b titles states (part_get_node_indices2 pl (part_of b k) t) l /\ words_strict l /\
    (forall x, In x l <-> exists w, node_word b k w /\ x = zero_based (d_ws b) w) /\
    gives b titles states (part_get_num_nodes2 pl (part_of b k) t) (length l).
Proof.
  intros b titles states pl k t O Hi D P. destruct (part_of_nodes b titles states (fun i => OK i) (clear pl) k t (opened_err _ _ _ _ None O) Hi D P eq_refl) as (l & Q & S & I); [intros w _; eexists; reflexivity|].
  exists l. split; [apply (gives_clear _ _ _ _ _ _ O); exact Q|]. split; [exact S|]. split.
  - intros x. rewrite I. split; intros (w & W & E); exists w; (split; [exact W|congruence]).
  - apply (gives_clear _ _ _ _ _ _ O). unfold part_get_num_nodes2, part_get_node_indices2. rewrite Q. reflexivity.
Qed.
Theorem C43_node_ids : forall b titles states pl k t node_ids, opened b titles states pl -> has_ids b = true -> distinct_ids b -> passed_tables b t -> passed node_ids (node_table b) ->
  (forall w, node_word b k w -> 1 <= w <= cval b NUMNP) ->
  exists l, gives b titles states (part_get_node_ids2 pl (part_of b k) node_ids t) l /\ words_strict l /\
    forall x, In x l <-> exists w, node_word b k w /\ x = wd b (ids_start b + (w - 1)).
Proof.
  intros b titles states pl k t node_ids O Hi D P Pn R. pose proof (opened_view _ _ _ _ O) as V.
  assert (F : forall w, 1 <= w <= cval b NUMNP -> node_lookup (node_table b) (zero_based (d_ws b) w) = OK (wd b (ids_start b + (w - 1)))).
  { intros w W. unfold node_lookup, zero_based, node_table. replace (w =? 0) with false by lia. rewrite stretch_length. replace (w - 1 <? Z.of_nat (Z.to_nat (cval b NUMNP))) with true by lia. rewrite aget_stretch by lia. do 2 f_equal. lia. }
  destruct (part_of_nodes b titles states (node_lookup (node_table b)) (clear pl) k t (opened_err _ _ _ _ None O) Hi D P eq_refl) as (l & Q & S & I); [intros w W; eexists; apply F, R, W|].
  exists l. split; [|split; [exact S|]].
  - apply (gives_clear _ _ _ _ _ _ O). unfold part_get_node_ids2. destruct Pn as [-> | ->]; [|cbn [bind]; change (pl_err (clear pl)) with (@None perr); exact Q].
    rewrite (node_ids_ok b titles states (clear pl) (view_err _ _ _ _ V None) Hi). cbn [bind]. change (clear (clear pl)) with (clear pl). change (pl_err (clear pl)) with (@None perr). exact Q.
  - intros x. rewrite I. split; intros (w & W & E); exists w; (split; [exact W|rewrite (F w (R w W)) in *; congruence]).
Qed.
Theorem C43_num_elements : forall b k, Z.of_nat (part_get_num_elements (part_of b k)) = Z.of_nat (length (members b (solids b) k ++ members b (thick_shells b) k ++ members b (beams b) k ++ members b (shells b) k)).
Proof. intros b k. unfold part_get_num_elements, part_of, member_ids. cbn [p_solid_ids p_thick_shell_ids p_beam_ids p_shell_ids]. rewrite !app_length, !map_length. lia. Qed.
(** A part with an element id that the plot does not have (a part of another plot):
    the element is looked for behind every array. *)
Theorem C43_foreign_part_refuted : forall b titles states pl p t id r, opened b titles states pl -> has_ids b = true -> distinct_ids b -> passed_tables b t ->
  0 < cval b NEL8 -> p_solid_ids p = id :: r -> ~ In id (id_table b (solids b)) -> part_get_node_indices2 pl p t = UB.
Proof.
  intros b titles states pl p t id r O Hi D (P1 & _ & _ & _ & P5 & _) N E Ni. pose proof (opened_view _ _ _ _ O) as V. pose proof (view_err _ _ _ _ V None) as Vc. fold (clear pl) in Vc.
  unfold part_get_node_indices2, part_nodes. cbv zeta. rewrite E. set (cap := (_ + _)%nat). set (st := {| n_cells := _; n_num := 0 |}).
  assert (U : add_element (fun i => OK i) (clear pl) st (id :: r) (t_solid_ids t) (t_solid_cons t) read_solid_element_ids read_solid_elements c_nodes = UB); [|rewrite U; reflexivity].
  assert (Ld : length (id_table b (solids b)) = Z.to_nat (cval b NEL8)) by apply stretch_length.
  assert (Lc : length (each (cval b NEL8) (con_spec b (g_el8 b) 8)) = Z.to_nat (cval b NEL8)) by apply each_length.
  unfold add_element.
  assert (Q1 : (match t_solid_ids t with Some l => OK (clear pl, Some l) | None => do ' (pl, l) <- read_solid_element_ids (clear pl); OK (match pl_err pl with Some _ => clear pl | None => pl end, null_if_empty l) end) = OK (clear pl, Some (id_table b (solids b)))).
  { destruct P1 as [-> | ->]; [|reflexivity]. rewrite (solid_ids_ok b titles states _ Vc Hi). cbn [bind]. change (pl_err (clear (clear pl))) with (@None perr). cbn match. change (clear (clear pl)) with (clear pl).
    change (stretch b (i_el8 b) (cval b NEL8)) with (id_table b (solids b)). destruct (id_table b (solids b)); [cbn [length] in Ld; lia|reflexivity]. }
  rewrite Q1. cbn [bind].
  assert (Q2 : (match t_solid_cons t with Some l => OK (clear pl, length (id_table b (solids b)), Some l) | None => do ' (pl, l) <- read_solid_elements (clear pl); OK (match pl_err pl with Some _ => clear pl | None => pl end, length l, null_if_empty l) end) = OK (clear pl, length (id_table b (solids b)), Some (each (cval b NEL8) (con_spec b (g_el8 b) 8)))).
  { destruct P5 as [-> | ->]; [|reflexivity]. rewrite (solids_con_ok b titles states _ Vc). cbn [bind]. change (pl_err (clear (clear pl))) with (@None perr). cbn match. change (clear (clear pl)) with (clear pl). rewrite Lc, Ld.
    destruct (each (cval b NEL8) (con_spec b (g_el8 b) 8)); [cbn [length] in Lc; lia|reflexivity]. }
  rewrite Q2. cbn [bind push_elements]. unfold distinct_ids, all_tables in D. pose proof (Forall_inv D) as D1. cbn beta in D1.
  assert (Nn : id_table b (solids b) <> []) by (intros E0; rewrite E0 in Ld; cbn [length] in Ld; lia). destruct (word_search_iff _ id 0 Nn D1) as (_ & (_ & W)). specialize (W Ni).
  destruct (length (id_table b (solids b))) as [|last]; [reflexivity|]. cbn [Nat.sub] in W. rewrite Nat.sub_0_r in W. rewrite W. reflexivity.
Qed.

(** ** C44: all element ids *)
Theorem C44_all_ids_partial : forall b titles states pl, opened b titles states pl -> has_ids b = true -> distinct_ids b -> mergeable [] (map (id_table b) (all_tables b)) ->
  exists l, gives b titles states (read_all_element_ids pl) l /\ words_strict l /\ Permutation l (concat (map (id_table b) (all_tables b))).
Proof.
  intros b titles states pl O Hi D M. destruct (merge_ok _ _ M) as (l & Q & S & P); [constructor|unfold distinct_ids in D; apply Forall_map; exact D|].
  exists l. split; [|split; [exact S|exact P]]. apply (gives_clear _ _ _ _ _ _ O). rewrite (read_all_ok b titles states pl O Hi), Q. reflexivity.
Qed.
(** The usual case: the ids of a type follow those of the types before it. *)
Theorem C44_ascending : forall b titles states pl, opened b titles states pl -> has_ids b = true -> ascending (map (id_table b) (all_tables b)) ->
  gives b titles states (read_all_element_ids pl) (concat (map (id_table b) (all_tables b))).
Proof.
  intros b titles states pl O Hi A. apply (gives_clear _ _ _ _ _ _ O). rewrite (read_all_ok b titles states pl O Hi), (ascending_merge _ [] A); [reflexivity|]. apply Forall_forall. intros t _ x y [].
Qed.
(** Whatever is returned contains every id exactly as often as the tables do. *)
Theorem C44_permutation : forall b titles states pl, opened b titles states pl -> has_ids b = true ->
  read_all_element_ids pl = UB \/ exists l, gives b titles states (read_all_element_ids pl) l /\ Permutation l (concat (map (id_table b) (all_tables b))).
Proof.
  intros b titles states pl O Hi. rewrite (read_all_ok b titles states pl O Hi). destruct (merge_any (map (id_table b) (all_tables b)) []) as [-> | (x & -> & P)]; [left; reflexivity|right]. exists x. split; [apply (gives_clear _ _ _ _ _ _ O); reflexivity|exact P].
Qed.
(** The ids of a part (if realloc leaves the array in place). *)
Theorem C44_part_ids_partial : forall moves p, (forall o n, moves o n = false) -> Forall words_strict (part_tables p) -> mergeable [] (part_tables p) ->
  exists l, part_get_all_element_ids moves p = OK l /\ words_strict l /\ Permutation l (concat (part_tables p)).
Proof. intros moves p Mv S M. rewrite (part_ids_merge moves p Mv). apply (merge_ok [] (part_tables p) M); [constructor|exact S]. Qed.
(** Exactly when two tables are merged into a sorted one: the second fits into a gap
    of the first, and the rest of the first is not longer than the second. *)
Definition two_types (dst src : list Z) : part := {| p_solid_ids := dst; p_thick_shell_ids := src; p_beam_ids := []; p_shell_ids := []; p_solid_indices := []; p_thick_shell_indices := []; p_beam_indices := []; p_shell_indices := [] |}.
Theorem C44_two_types_exact : forall moves dst src, (forall o n, moves o n = false) -> dst <> [] -> src <> [] -> words_strict dst -> words_strict src ->
  (exists l, part_get_all_element_ids moves (two_types dst src) = OK l /\ words_strict l) <-> exists a c, gap dst src a c.
Proof.
  intros moves dst src Mv Nd Ns Sd Ss. rewrite (part_ids_merge moves _ Mv). unfold part_tables. cbn [two_types p_solid_ids p_thick_shell_ids p_beam_ids p_shell_ids].
  assert (E : merge_tables [] [dst; src; []; []] = insert_into dst (length dst) src).
  { cbn [merge_tables]. destruct dst as [|d0 dst]; [congruence|]. destruct src as [|s0 src]; [congruence|]. cbn [bind]. destruct (insert_into (d0 :: dst) (length (d0 :: dst)) (s0 :: src)); reflexivity. }
  rewrite E. split.
  - intros (l & Q & S). destruct (insert_into_cases dst src Nd Ns) as (i & I & Q'). rewrite Q in Q'. destruct (Nat.leb_spec (length (skipn i dst)) (length src)) as [L|L]; [|discriminate]. assert (El : l = firstn i dst ++ src ++ skipn i dst) by congruence. subst l.
    exists (firstn i dst), (skipn i dst). split; [symmetry; apply firstn_skipn|]. pose proof (strict_app_lt _ _ S) as A. destruct (strict_parts _ _ S) as (_ & S2). pose proof (strict_app_lt _ _ S2) as B. split; [|split; [|exact L]].
    + intros x y X Y. apply A; [exact X|apply in_or_app; left; exact Y].
    + intros x y X Y. apply B; assumption.
  - intros (a & c & G). exists (a ++ src ++ c). split; [apply insert_gap; assumption|apply (gap_sorted dst src a c Sd Ss G)].
Qed.
(** Interleaved ids are returned unsorted. *)
Theorem C44_interleaved_refuted : exists p, Forall words_strict (part_tables p) /\ part_get_all_element_ids (fun _ _ => false) p = OK [1; 2; 4; 6; 3; 5].
Proof. exists (two_types [1; 3; 5] [2; 4; 6]). split; [|vm_compute; reflexivity]. unfold part_tables, words_strict. cbn. repeat constructor. Qed.
(** Few ids before many: memcpy with overlapping arrays. *)
Theorem C44_overlap_refuted : exists p, Forall words_strict (part_tables p) /\ ascending (rev (part_tables p)) /\ part_get_all_element_ids (fun _ _ => false) p = UB.
Proof.
  exists (two_types [2; 3] [1]). split; [|split; [|vm_compute; reflexivity]].
  - unfold part_tables, words_strict. cbn. repeat constructor.
  - unfold part_tables, ascending. cbn. repeat constructor; cbn; intuition lia.
Qed.
(** Three types: the array is first made smaller, then larger; if realloc moves it,
    freed memory is used. *)
Theorem C44_moved_refuted : exists p, Forall words_strict (part_tables p) /\ ascending (part_tables p) /\ part_get_all_element_ids (fun o n => (o <? n)%nat) p = UB.
Proof.
  exists {| p_solid_ids := [1]; p_thick_shell_ids := [2]; p_beam_ids := [3]; p_shell_ids := []; p_solid_indices := []; p_thick_shell_indices := []; p_beam_indices := []; p_shell_indices := [] |}. split; [|split; [|vm_compute; reflexivity]].
  - unfold part_tables, words_strict. cbn. repeat constructor.
  - unfold part_tables, ascending. cbn. repeat constructor; cbn; intuition lia.
Qed.
(** A plot whose solids and beams have larger ids than its shell. *)
Definition rich_back : dbuf :=
  plot_of [rich_words [] ++ rich_geometry ++ ([2 ^ 32 - 1; 0; 0; 0; 0; 2; 1; 1; 1; 1; 0; 0; 0; 0; 0; 2] ++ [11; 12] ++ [41] ++ [51] ++ [31] ++ [61] ++ [41; 42; 41; 42; 0; 0]) ++ [EOF32] ++ title_words ++ [EOF32; 0; 0];
           rich_state 169 1000 ++ rich_state 169 2000 ++ [EOF32; 0]].
Theorem C44_plot_refuted : exists pl, opened rich_back 148 [189; 358] pl /\ has_ids rich_back = true /\ distinct_ids rich_back /\ read_all_element_ids pl = UB.
Proof.
  assert (X : exists pl, opened rich_back 148 [189; 358] pl) by (change [189; 358] with [189; 189 + 169]; prove_opened rich_back 169). destruct X as (pl & O). exists pl. split; [exact O|].
  assert (Hi : has_ids rich_back = true) by (vm_compute; reflexivity). split; [exact Hi|].
  assert (T : map (id_table rich_back) (all_tables rich_back) = [[41]; [51]; [31]; [61]]) by (vm_compute; reflexivity). split.
  - unfold distinct_ids. apply (proj1 (Forall_map (id_table rich_back) words_strict (all_tables rich_back))). rewrite T. repeat constructor.
  - rewrite (read_all_ok _ _ _ pl O Hi), T. vm_compute. reflexivity.
Qed.

(** ** Non-vacuity *)
Example rich3_tables : map (id_table rich3) (all_tables rich3) = [[21]; [51]; [31]; [61]].
Proof. vm_compute. reflexivity. Qed.
Example rich3_distinct : distinct_ids rich3.
Proof. unfold distinct_ids. apply (proj1 (Forall_map (id_table rich3) words_strict (all_tables rich3))). rewrite rich3_tables. repeat constructor. Qed.
Definition nothing_passed : tables := {| t_solid_ids := None; t_beam_ids := None; t_shell_ids := None; t_thick_shell_ids := None; t_solid_cons := None; t_beam_cons := None; t_shell_cons := None; t_thick_shell_cons := None |}.
Lemma nothing_ok b : passed_tables b nothing_passed.
Proof. unfold passed_tables, passed. cbn. tauto. Qed.
Example C42_example : exists pl, opened rich3 148 [189; 358] pl /\ has_ids rich3 = true /\ part_index_ok rich3 1 /\ ~ empty_part rich3 1 /\ empty_part rich3 2 /\
  part_of rich3 1 = {| p_solid_ids := []; p_thick_shell_ids := [61]; p_beam_ids := []; p_shell_ids := [31]; p_solid_indices := []; p_thick_shell_indices := [0%nat]; p_beam_indices := []; p_shell_indices := [0%nat] |}.
Proof.
  destruct rich3_opened as (pl & O). exists pl. split; [exact O|]. split; [vm_compute; reflexivity|]. split; [split; [lia|vm_compute; discriminate]|].
  assert (E : part_of rich3 1 = {| p_solid_ids := []; p_thick_shell_ids := [61]; p_beam_ids := []; p_shell_ids := [31]; p_solid_indices := []; p_thick_shell_indices := [0%nat]; p_beam_indices := []; p_shell_indices := [0%nat] |}) by (vm_compute; reflexivity).
  split; [rewrite empty_ids, E; cbn; intros (_ & X & _); discriminate|]. split; [|exact E]. rewrite empty_ids. repeat split; vm_compute; reflexivity.
Qed.
Ltac word_cases I i m :=
  match type of I with _ <= _ < ?n => let v := eval vm_compute in n in change n with v in I end; assert (i = 0) by lia; subst i;
  match goal with |- context [wd rich3 (?p + _ + _)] => let v := eval vm_compute in p in change p with v end;
  let X := fresh in assert (X : m = 0 \/ m = 1 \/ m = 2 \/ m = 3 \/ m = 4 \/ m = 5 \/ m = 6 \/ m = 7) by lia;
  repeat (destruct X as [->|X]; [try lia; split; vm_compute; discriminate|]); subst m; try lia; split; vm_compute; discriminate.
Example C43_example : exists pl, opened rich3 148 [189; 358] pl /\ distinct_ids rich3 /\ passed_tables rich3 nothing_passed /\ cval rich3 NUMNP = 2 /\ (forall w, node_word rich3 1 w -> 1 <= w <= 2) /\ node_word rich3 1 2.
Proof.
  destruct rich3_opened as (pl & O). exists pl. split; [exact O|]. split; [apply rich3_distinct|]. split; [apply nothing_ok|]. split; [vm_compute; reflexivity|].
  assert (W : forall t i m, In t (all_tables rich3) -> 0 <= i < e_num t -> 0 <= m < e_nodes t -> 1 <= wd rich3 (e_pos t + i * e_width t + m) <= 2).
  { intros t i m T I M. cbn [all_tables In] in T.
    destruct T as [<-|[<-|[<-|[<-|[]]]]]; cbn [solids beams shells thick_shells e_num e_nodes e_pos e_width] in *.
    - word_cases I i m. - word_cases I i m. - word_cases I i m. - word_cases I i m. }
  split; [intros w (t & i & m & T & I & _ & M & ->); apply W; assumption|].
  exists (shells rich3), 0, 1. split; [cbn; tauto|]. split; [split; [lia|vm_compute; reflexivity]|]. split; [vm_compute; reflexivity|]. split; [cbn; lia|vm_compute; reflexivity].
Qed.
Example C44_example : mergeable [] (map (id_table rich3) (all_tables rich3)).
Proof.
  rewrite rich3_tables. apply mg_first; [discriminate|]. apply mg_step with (a := [21]) (c := []); [discriminate|discriminate|split; [reflexivity|split; [cbn; intuition lia|split; [cbn; intuition lia|cbn; lia]]]|]. cbn [app].
  apply mg_step with (a := [21]) (c := [51]); [discriminate|discriminate|split; [reflexivity|split; [cbn; intuition lia|split; [cbn; intuition lia|cbn; lia]]]|]. cbn [app].
  apply mg_step with (a := [21; 31; 51]) (c := []); [discriminate|discriminate|split; [reflexivity|split; [cbn; intuition lia|split; [cbn; intuition lia|cbn; lia]]]|]. apply mg_end.
Qed.
Example C61_example : exists pl, opened rich3 148 [189; 358] pl /\ by_id_ids rich3 148 [189; 358] pl None [41; 42] /\ words_strict [41; 42] /\ ~ empty_part rich3 1.
Proof.
  destruct rich3_opened as (pl & O). exists pl. split; [exact O|]. split; [|split; [repeat constructor|destruct C42_example as (_ & _ & _ & _ & X & _); exact X]].
  right. split; [reflexivity|]. assert (E : [41; 42] = stretch rich3 (i_parts rich3) (cval rich3 NMMAT)) by (vm_compute; reflexivity). rewrite E. apply C57_part_ids; [apply opened_err; exact O|vm_compute; reflexivity|vm_compute; reflexivity|vm_compute; discriminate].
Qed.
Print Assumptions C42_part.
Print Assumptions C42_no_elements.
Print Assumptions C42_members.
Print Assumptions C43_node_indices.
Print Assumptions C43_node_ids.
Print Assumptions C43_num_elements.
Print Assumptions C43_foreign_part_refuted.
Print Assumptions C44_all_ids_partial.
Print Assumptions C44_ascending.
Print Assumptions C44_permutation.
Print Assumptions C44_part_ids_partial.
Print Assumptions C44_two_types_exact.
Print Assumptions C44_interleaved_refuted.
Print Assumptions C44_overlap_refuted.
Print Assumptions C44_moved_refuted.
Print Assumptions C44_plot_refuted.
Print Assumptions C61_by_id.
Print Assumptions C61_unknown.
Print Assumptions C61_no_parts.
Print Assumptions C61_unsorted_refuted.
