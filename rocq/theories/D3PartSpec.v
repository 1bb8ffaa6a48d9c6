(** * What a part consists of *)
From Coq Require Import Sorting.Permutation.
From Verif Require Import CBase SearchSpec D3BufModel D3BufSpec D3Model D3Spec D3ReadModel D3ReadSpec D3PartModel.
Open Scope Z_scope.

(** An element table: it starts at word [e_pos], an element has [e_nodes] nodes,
    [e_width] words, the last of them is its part; [e_num] elements whose ids
    start at word [e_ids]. *)
Record etable : Type := { e_pos : Z; e_nodes : Z; e_width : Z; e_num : Z; e_ids : Z }.
Definition solids (b : dbuf) : etable := {| e_pos := g_el8 b; e_nodes := 8; e_width := 9; e_num := cval b NEL8; e_ids := i_el8 b |}.
Definition thick_shells (b : dbuf) : etable := {| e_pos := g_elt b; e_nodes := 8; e_width := 9; e_num := cval b NELT; e_ids := i_elt b |}.
Definition beams (b : dbuf) : etable := {| e_pos := g_el2 b; e_nodes := 2; e_width := 6; e_num := cval b NEL2; e_ids := i_el2 b |}.
Definition shells (b : dbuf) : etable := {| e_pos := g_el4 b; e_nodes := 4; e_width := 5; e_num := cval b NEL4; e_ids := i_el4 b |}.
Definition all_tables (b : dbuf) : list etable := [solids b; beams b; shells b; thick_shells b].

(** Element [i] belongs to the part with the index [k]: parts are stored one based. *)
Definition in_part (b : dbuf) (t : etable) (k i : Z) : bool := wd b (e_pos t + i * e_width t + e_width t - 1) =? k + 1.
Definition element_id (b : dbuf) (t : etable) (i : Z) : Z := wd b (e_ids t + i).
Definition id_table (b : dbuf) (t : etable) : list Z := stretch b (e_ids t) (e_num t).
(** The elements of the part, in file order. *)
Definition members (b : dbuf) (t : etable) (k : Z) : list Z := filter (in_part b t k) (each (e_num t) (fun i => i)).
Definition member_ids (b : dbuf) (t : etable) (k : Z) : list Z := map (element_id b t) (members b t k).
Definition part_of (b : dbuf) (k : Z) : part := {|
  p_solid_ids := member_ids b (solids b) k; p_thick_shell_ids := member_ids b (thick_shells b) k;
  p_beam_ids := member_ids b (beams b) k; p_shell_ids := member_ids b (shells b) k;
  p_solid_indices := map Z.to_nat (members b (solids b) k); p_thick_shell_indices := map Z.to_nat (members b (thick_shells b) k);
  p_beam_indices := map Z.to_nat (members b (beams b) k); p_shell_indices := map Z.to_nat (members b (shells b) k) |}.
(** A part index that is not the one of the stored number 0. *)
Definition part_index_ok (b : dbuf) (k : Z) : Prop := 0 <= k /\ k <> 2 ^ (8 * d_ws b) - 1.
Definition empty_part (b : dbuf) (k : Z) : Prop := Forall (fun t => members b t k = []) (all_tables b).

(** ** Nodes *)
(** [w] is the stored (one based) number of a node of an element of part [k]. *)
Definition node_word (b : dbuf) (k w : Z) : Prop :=
  exists t i m, In t (all_tables b) /\ 0 <= i < e_num t /\ in_part b t k i = true /\ 0 <= m < e_nodes t /\ w = wd b (e_pos t + i * e_width t + m).
Definition distinct_ids (b : dbuf) : Prop := Forall (fun t => words_strict (id_table b t)) (all_tables b).
(** A table that is passed is the one of the plot. *)
Definition passed {A} (x : option (list A)) (l : list A) : Prop := x = None \/ x = Some l.
Definition passed_tables (b : dbuf) (t : tables) : Prop :=
  passed (t_solid_ids t) (id_table b (solids b)) /\ passed (t_beam_ids t) (id_table b (beams b)) /\
  passed (t_shell_ids t) (id_table b (shells b)) /\ passed (t_thick_shell_ids t) (id_table b (thick_shells b)) /\
  passed (t_solid_cons t) (each (cval b NEL8) (con_spec b (g_el8 b) 8)) /\ passed (t_beam_cons t) (each (cval b NEL2) (beam_con_spec b (g_el2 b))) /\
  passed (t_shell_cons t) (each (cval b NEL4) (con_spec b (g_el4 b) 4)) /\ passed (t_thick_shell_cons t) (each (cval b NELT) (con_spec b (g_elt b) 8)).
Definition node_table (b : dbuf) : list Z := stretch b (ids_start b) (cval b NUMNP).

(** ** Merging sorted tables *)
(** [src] fits in one piece into the gap between [a] and [c], and it is at least as
    long as the rest [c] that must be moved. *)
Definition gap (dst src a c : list Z) : Prop :=
  dst = a ++ c /\ (forall x y, In x a -> In y src -> x < y) /\ (forall x y, In x c -> In y src -> y < x) /\ (length c <= length src)%nat.
(** The tables can be merged one after the other. *)
Inductive mergeable : list Z -> list (list Z) -> Prop :=
| mg_end all : mergeable all []
| mg_skip all r : mergeable all r -> mergeable all ([] :: r)
| mg_first src r : src <> [] -> mergeable src r -> mergeable [] (src :: r)
| mg_step all src r a c : all <> [] -> src <> [] -> gap all src a c -> mergeable (a ++ src ++ c) r -> mergeable all (src :: r).
Definition part_tables (p : part) : list (list Z) := [p_solid_ids p; p_thick_shell_ids p; p_beam_ids p; p_shell_ids p].
(** All ids of a table are below those of the tables behind it. *)
Definition ascending (l : list (list Z)) : Prop := ForallOrdPairs (fun s t => forall x y, In x s -> In y t -> x < y) l.
