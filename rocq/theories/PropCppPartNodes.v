(** * C74: the nodes of a part through dro::D3plotPart *)
From Verif Require Import CBase CBaseFacts SearchModel SearchSpec SearchProofs BinModel D3BufModel D3BufSpec D3Model D3Spec D3OpenProofs D3StateProofs D3Sample D3ReadModel D3ReadSpec D3ReadProofs PropD3Read D3LayerProofs D3PartModel D3PartSpec D3PartProofs D3Rich PropD3Part CppPartNodesModel.
Open Scope Z_scope.

Definition hands_back {A} (b : dbuf) (titles : Z) (states : list Z) (r : res (plot * outcome A)) (x : A) : Prop :=
  exists pl, r = OK (pl, Returned x) /\ opened b titles states pl.

Lemma gives_hands_back {A} b titles states (r : res (plot * A)) x : gives b titles states r x -> hands_back b titles states (or_throw r) x.
Proof. intros (pl & -> & E & O). exists pl. split; [|exact O]. unfold or_throw. cbn [bind]. rewrite E. reflexivity. Qed.

Lemma part_nodes_solids f pl p t s : p_solid_ids p = [] ->
  part_nodes f pl p t = part_nodes f pl p {| t_solid_ids := t_solid_ids t; t_beam_ids := t_beam_ids t; t_shell_ids := t_shell_ids t; t_thick_shell_ids := t_thick_shell_ids t;
    t_solid_cons := s; t_beam_cons := t_beam_cons t; t_shell_cons := t_shell_cons t; t_thick_shell_cons := t_thick_shell_cons t |}.
Proof. intros E. unfold part_nodes. cbv zeta. rewrite E. reflexivity. Qed.

(** The caller passes no thick shell connectivities, or the part has no
    solids: the nodes are those of the elements of the part. *)
Theorem C74_nodes_partial : forall b titles states pl k t node_ids, opened b titles states pl -> has_ids b = true -> distinct_ids b -> passed_tables b t -> passed node_ids (node_table b) ->
  t_thick_shell_cons t = None \/ members b (solids b) k = [] -> (forall w, node_word b k w -> 1 <= w <= cval b NUMNP) ->
  exists li ln, hands_back b titles states (cpp_get_node_indices pl (part_of b k) t) li /\ hands_back b titles states (cpp_get_node_ids pl (part_of b k) node_ids t) ln /\
    hands_back b titles states (cpp_get_num_nodes pl (part_of b k) t) (length li) /\ words_strict li /\ words_strict ln /\
    (forall x, In x li <-> exists w, node_word b k w /\ x = zero_based (d_ws b) w) /\
    (forall x, In x ln <-> exists w, node_word b k w /\ x = wd b (ids_start b + (w - 1))).
Proof.
  intros b titles states pl k t node_ids O Hi D P Pn H R. pose proof P as (P1 & P2 & P3 & P4 & P5 & P6 & P7 & P8).
  set (t' := {| t_solid_ids := t_solid_ids t; t_beam_ids := t_beam_ids t; t_shell_ids := t_shell_ids t; t_thick_shell_ids := t_thick_shell_ids t;
    t_solid_cons := None; t_beam_cons := t_beam_cons t; t_shell_cons := t_shell_cons t; t_thick_shell_cons := t_thick_shell_cons t |}).
  assert (P' : passed_tables b t') by (unfold passed_tables; cbn [t' t_solid_ids t_beam_ids t_shell_ids t_thick_shell_ids t_solid_cons t_beam_cons t_shell_cons t_thick_shell_cons]; repeat split; try assumption; left; reflexivity).
  assert (Eq : forall f q, part_nodes f q (part_of b k) (cpp_tables t) = part_nodes f q (part_of b k) t').
  { intros f q. destruct H as [H|H].
    - unfold cpp_tables. rewrite H. unfold t'. rewrite H. reflexivity.
    - rewrite (part_nodes_solids f q (part_of b k) (cpp_tables t) None); [reflexivity|]. cbn [part_of p_solid_ids]. unfold member_ids. rewrite H. reflexivity. }
  destruct (C43_node_indices b titles states pl k t' O Hi D P') as (li & Gi & Si & Ii & Ni). destruct (C43_node_ids b titles states pl k t' node_ids O Hi D P' Pn R) as (ln & Gn & Sn & In').
  assert (Ei : part_get_node_indices2 pl (part_of b k) (cpp_tables t) = part_get_node_indices2 pl (part_of b k) t') by (unfold part_get_node_indices2; apply Eq).
  exists li, ln. split; [|split; [|split; [|split; [exact Si|split; [exact Sn|split; [exact Ii|exact In']]]]]].
  - apply gives_hands_back. rewrite Ei. exact Gi.
  - apply gives_hands_back. replace (part_get_node_ids2 pl (part_of b k) node_ids (cpp_tables t)) with (part_get_node_ids2 pl (part_of b k) node_ids t'); [exact Gn|].
    unfold part_get_node_ids2. destruct (match node_ids with Some l => OK (clear pl, l) | None => read_node_ids (clear pl) end) as [[q l]| |]; cbn [bind]; try reflexivity. destruct (pl_err q); [reflexivity|]. symmetry. apply Eq.
  - apply gives_hands_back. unfold part_get_num_nodes2. rewrite Ei. exact Ni.
Qed.

(** Nodes are returned only if the C function reported no error; otherwise its
    error is thrown. *)
Theorem C74_throws : forall pl p t n pl',
  (forall l, cpp_get_node_ids pl p n t = OK (pl', Returned l) -> pl_err pl' = None) /\ (forall e, cpp_get_node_ids pl p n t = OK (pl', Throws e) -> pl_err pl' = Some e) /\
  (forall l, cpp_get_node_indices pl p t = OK (pl', Returned l) -> pl_err pl' = None) /\ (forall e, cpp_get_node_indices pl p t = OK (pl', Throws e) -> pl_err pl' = Some e) /\
  (forall l, cpp_get_num_nodes pl p t = OK (pl', Returned l) -> pl_err pl' = None) /\ (forall e, cpp_get_num_nodes pl p t = OK (pl', Throws e) -> pl_err pl' = Some e).
Proof.
  assert (H : forall A (r : res (plot * A)) pl', (forall l, or_throw r = OK (pl', Returned l) -> pl_err pl' = None) /\ (forall e, or_throw r = OK (pl', Throws e) -> pl_err pl' = Some e)).
  { intros A r pl'. unfold or_throw. destruct r as [(p1, x)| | ]; cbn [bind]; split; intros y; try discriminate; destruct (pl_err p1) eqn:E; try discriminate; intros [= -> <-]; exact E. }
  intros pl p t n pl'. unfold cpp_get_node_ids, cpp_get_node_indices, cpp_get_num_nodes. do 2 (split; [apply H|]; split; [apply H|]). split; apply H.
Qed.

(** What is missing: with the plot's thick shell connectivities the nodes of a
    solid are looked up in them; if the solid has no thick shell of the same
    index, outside of the array. *)
Theorem C74_thick_for_solid_refuted : forall b titles states pl k t i r, opened b titles states pl -> has_ids b = true -> distinct_ids b -> passed_tables b t ->
  t_thick_shell_cons t = Some (each (cval b NELT) (con_spec b (g_elt b) 8)) -> members b (solids b) k = i :: r -> cval b NELT <= i ->
  cpp_get_node_indices pl (part_of b k) t = UB.
Proof.
  intros b titles states pl k t i r O Hi D (P1 & _) T M L. pose proof (opened_view _ _ _ _ O) as V. pose proof (view_err _ _ _ _ V None) as Vc. fold (clear pl) in Vc.
  assert (Mi : In i (members b (solids b) k)) by (rewrite M; left; reflexivity). unfold members in Mi. apply filter_In in Mi. destruct Mi as (Mi & _).
  unfold each in Mi. apply in_map_iff in Mi. destruct Mi as (ni & Ei & Mi). apply in_seq in Mi. cbn [solids e_num] in Mi.
  assert (Hn : 0 <= i < cval b NEL8) by lia.
  unfold cpp_get_node_indices, part_get_node_indices2, part_nodes. cbv zeta.
  assert (E : p_solid_ids (part_of b k) = element_id b (solids b) i :: map (element_id b (solids b)) r) by (cbn [part_of p_solid_ids]; unfold member_ids; rewrite M; reflexivity).
  rewrite E. set (st := {| n_cells := _; n_num := 0 |}).
  assert (U : add_element (fun i => OK i) (clear pl) st (element_id b (solids b) i :: map (element_id b (solids b)) r) (t_solid_ids (cpp_tables t)) (t_solid_cons (cpp_tables t)) read_solid_element_ids read_solid_elements c_nodes = UB); [|rewrite U; reflexivity].
  assert (Ld : length (id_table b (solids b)) = Z.to_nat (cval b NEL8)) by apply stretch_length.
  unfold add_element. cbn [cpp_tables t_solid_ids t_solid_cons].
  assert (Q1 : (match t_solid_ids t with Some l => OK (clear pl, Some l) | None => do ' (pl, l) <- read_solid_element_ids (clear pl); OK (match pl_err pl with Some _ => clear pl | None => pl end, null_if_empty l) end) = OK (clear pl, Some (id_table b (solids b)))).
  { destruct P1 as [-> | ->]; [|reflexivity]. rewrite (solid_ids_ok b titles states _ Vc Hi). cbn [bind]. change (pl_err (clear (clear pl))) with (@None perr). cbn match. change (clear (clear pl)) with (clear pl).
    change (stretch b (i_el8 b) (cval b NEL8)) with (id_table b (solids b)). destruct (id_table b (solids b)); [cbn [length] in Ld; lia|reflexivity]. }
  rewrite Q1. cbn [bind]. rewrite T. cbn [bind push_elements]. unfold distinct_ids, all_tables in D. pose proof (Forall_inv D) as D1. cbn beta in D1.
  assert (Nn : id_table b (solids b) <> []) by (intros E0; rewrite E0 in Ld; cbn [length] in Ld; lia).
  destruct (word_search_iff _ (element_id b (solids b) i) (Z.to_nat i) Nn D1) as (W & _).
  destruct (length (id_table b (solids b))) as [|last] eqn:El; [reflexivity|]. cbn [Nat.sub] in W. rewrite Nat.sub_0_r in W.
  assert (Q : nth_error (id_table b (solids b)) (Z.to_nat i) = Some (element_id b (solids b) i)).
  { apply aget_OK. unfold id_table. rewrite aget_stretch by (cbn [solids e_num]; lia). f_equal. unfold element_id. f_equal. lia. }
  rewrite (proj2 W Q). cbn [bind]. unfold aget. rewrite (proj2 (nth_error_None _ _)); [reflexivity|]. rewrite map_length, each_length. lia.
Qed.

(** Even if it has one, the nodes are the wrong ones: a plot with a solid at
    node 0 and a thick shell at node 1, its connectivities passed. *)
Definition apart_geometry : list Z :=
  [100; 101; 102; 103; 104; 105] ++ [1; 1; 1; 1; 1; 1; 1; 1; 1] ++ [2; 2; 2; 2; 2; 2; 2; 2; 2] ++ [1; 2; 1; 0; 0; 2] ++ [1; 2; 2; 1; 2].
Definition apart : dbuf :=
  plot_of [rich_words [] ++ apart_geometry ++ rich_ids ++ [EOF32] ++ title_words ++ [EOF32; 0; 0]; rich_state 169 1000 ++ rich_state 169 2000 ++ [EOF32; 0]].
Definition thick_passed : tables := {| t_solid_ids := Some (id_table apart (solids apart)); t_beam_ids := None; t_shell_ids := None; t_thick_shell_ids := None; t_solid_cons := None; t_beam_cons := None; t_shell_cons := None;
  t_thick_shell_cons := Some (each (cval apart NELT) (con_spec apart (g_elt apart) 8)) |}.
Lemma apart_opened : exists pl, opened apart 148 [189; 358] pl.
Proof. change [189; 358] with [189; 189 + 169]. prove_opened apart 169. Qed.
Theorem C74_wrong_nodes_refuted : exists pl, opened apart 148 [189; 358] pl /\ has_ids apart = true /\ distinct_ids apart /\ passed_tables apart thick_passed /\
  (forall w : Z, node_word apart 0 w <-> w = 1) /\
  hands_back apart 148 [189; 358] (cpp_get_node_indices pl (part_of apart 0) thick_passed) [1].
Proof.
  destruct apart_opened as (pl & O). exists pl. split; [exact O|]. split; [vm_compute; reflexivity|]. split; [|split; [|split]].
  - assert (T : map (id_table apart) (all_tables apart) = [[21]; [51]; [31]; [61]]) by (vm_compute; reflexivity).
    unfold distinct_ids. apply (proj1 (Forall_map (id_table apart) words_strict (all_tables apart))). rewrite T. repeat constructor.
  - unfold passed_tables, passed. cbn [thick_passed t_solid_ids t_beam_ids t_shell_ids t_thick_shell_ids t_solid_cons t_beam_cons t_shell_cons t_thick_shell_cons]. tauto.
  - assert (W : forall t i m, In t (all_tables apart) -> 0 <= i < e_num t -> in_part apart t 0 i = true -> 0 <= m < e_nodes t -> wd apart (e_pos t + i * e_width t + m) = 1).
    { intros t i m T I Pi M. cbn [all_tables In] in T.
      assert (i = 0).
      { destruct T as [<-|[<-|[<-|[<-|[]]]]]; cbn [solids beams shells thick_shells e_num] in I; match type of I with _ <= _ < ?n => let v := eval vm_compute in n in change n with v in I end; lia. } subst i.
      destruct T as [<-|[<-|[<-|[<-|[]]]]]; try (vm_compute in Pi; discriminate).
      cbn [solids e_nodes] in M. cbn [solids e_pos e_width]. assert (X : m = 0 \/ m = 1 \/ m = 2 \/ m = 3 \/ m = 4 \/ m = 5 \/ m = 6 \/ m = 7) by lia.
      destruct X as [->|[->|[->|[->|[->|[->|[->| ->]]]]]]]; vm_compute; reflexivity. }
    intros w. split.
    + intros (t & i & m & T & I & Pi & M & ->). apply W; assumption.
    + intros ->. exists (solids apart), 0, 0. split; [cbn; tauto|]. split; [split; [lia|vm_compute; reflexivity]|]. split; [vm_compute; reflexivity|]. split; [cbn; lia|]. vm_compute. reflexivity.
  - exists (clear pl). split; [|apply opened_err; exact O].
    assert (E : part_of apart 0 = {| p_solid_ids := [21]; p_thick_shell_ids := []; p_beam_ids := []; p_shell_ids := []; p_solid_indices := [0%nat]; p_thick_shell_indices := []; p_beam_indices := []; p_shell_indices := [] |}) by (vm_compute; reflexivity).
    assert (T : thick_passed = {| t_solid_ids := Some [21]; t_beam_ids := None; t_shell_ids := None; t_thick_shell_ids := None; t_solid_cons := None; t_beam_cons := None; t_shell_cons := None;
      t_thick_shell_cons := Some [{| c_nodes := [1; 1; 1; 1; 1; 1; 1; 1]; c_mat := 1 |}] |}) by (vm_compute; reflexivity).
    rewrite E, T. vm_compute. reflexivity.
Qed.

(** The hypotheses are met. *)
Example C74_example : exists pl, opened rich3 148 [189; 358] pl /\ has_ids rich3 = true /\ distinct_ids rich3 /\ passed_tables rich3 nothing_passed /\ t_thick_shell_cons nothing_passed = None /\
  (forall w, node_word rich3 1 w -> 1 <= w <= 2) /\ node_word rich3 1 2.
Proof. destruct C43_example as (pl & O & D & P & _ & W & N). exists pl. repeat (split; [first [assumption|vm_compute; reflexivity]|]). exact N. Qed.
Example C74_thick_for_solid_example : exists pl t, opened sample 113 [154; 229] pl /\ has_ids sample = true /\ distinct_ids sample /\ passed_tables sample t /\
  t_thick_shell_cons t = Some (each (cval sample NELT) (con_spec sample (g_elt sample) 8)) /\ members sample (solids sample) 0 = [0] /\ cval sample NELT <= 0.
Proof.
  destruct sample_opened as (pl & O).
  exists pl, {| t_solid_ids := None; t_beam_ids := None; t_shell_ids := None; t_thick_shell_ids := None; t_solid_cons := None; t_beam_cons := None; t_shell_cons := None; t_thick_shell_cons := Some (each (cval sample NELT) (con_spec sample (g_elt sample) 8)) |}.
  split; [exact O|]. split; [vm_compute; reflexivity|]. split; [|split; [|split; [reflexivity|split; [vm_compute; reflexivity|vm_compute; discriminate]]]].
  - unfold distinct_ids. apply (proj1 (Forall_map (id_table sample) words_strict (all_tables sample))).
    match goal with |- Forall _ ?l => let v := eval vm_compute in l in change l with v end. repeat constructor.
  - unfold passed_tables, passed. cbn [t_solid_ids t_beam_ids t_shell_ids t_thick_shell_ids t_solid_cons t_beam_cons t_shell_cons t_thick_shell_cons]. tauto.
Qed.
Print Assumptions C74_throws.
