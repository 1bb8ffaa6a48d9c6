(** * Model of dro::D3plotPart::get_node_ids, get_node_indices, get_num_nodes
    (src/cpp/d3plot_part.cpp:129-220)

    The part and the plot are those of D3PartModel.v.  An Array pointer that
    is null, or an Array without data, is [None]. *)
From Verif Require Import CBase BinModel D3BufModel D3Model D3ReadModel D3PartModel.
Open Scope Z_scope.

(** d3plot_part.cpp:137-149, 163-174, 193-204: the arguments of the C function
    in the order of its parameters.  The argument for solid_cons is
    [thick_shell_cons ? thick_shell_cons->data() : NULL]. *)
Definition cpp_tables (t : tables) : tables := {|
  t_solid_ids := t_solid_ids t; t_beam_ids := t_beam_ids t; t_shell_ids := t_shell_ids t; t_thick_shell_ids := t_thick_shell_ids t;
  t_solid_cons := t_thick_shell_cons t; t_beam_cons := t_beam_cons t; t_shell_cons := t_shell_cons t; t_thick_shell_cons := t_thick_shell_cons t |}.

(** What the caller gets. *)
Inductive outcome (A : Type) := Returned (x : A) | Throws (e : perr).
Arguments Returned {A}. Arguments Throws {A}.

(** d3plot_part.cpp:150-153, 175-178, 205-208: an error string becomes an exception. *)
Definition or_throw {A} (r : res (plot * A)) : res (plot * outcome A) :=
  do ' (pl, x) <- r; OK (pl, match pl_err pl with Some e => Throws e | None => Returned x end).

(** d3plot_part.cpp:129-156 *)
Definition cpp_get_node_ids (pl : plot) (p : part) (node_ids : option (list Z)) (t : tables) : res (plot * outcome (list Z)) :=
  or_throw (part_get_node_ids2 pl p node_ids (cpp_tables t)).
(** d3plot_part.cpp:158-181 *)
Definition cpp_get_node_indices (pl : plot) (p : part) (t : tables) : res (plot * outcome (list Z)) :=
  or_throw (part_get_node_indices2 pl p (cpp_tables t)).
(** d3plot_part.cpp:183-211 *)
Definition cpp_get_num_nodes (pl : plot) (p : part) (t : tables) : res (plot * outcome nat) :=
  or_throw (part_get_num_nodes2 pl p (cpp_tables t)).
