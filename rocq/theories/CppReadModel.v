(** * Model of the memory of the readers of dro::D3plot: /repo/src/cpp/d3plot.cpp 65-475

    The C functions with their memory (ReadMemModel.v), the check of the error string
    behind every call, and the objects made of what they return (CppArrayModel.v).  An
    array of dVec3, of d3plot_solid_con, ... is counted in the units of ReadMemModel (words
    of vectors, elements).  What blocks contain is not modelled, the values are carried
    beside the objects.  Allocation by std::vector and exceptions thrown by it are not
    modelled. *)
From Verif Require Import CBase BinModel D3BufModel D3Model D3ReadModel D3PartModel CppPartNodesModel CppTitleModel CppArrayModel OwnModel ReadMemModel.
Open Scope nat_scope.

(** d3plot.cpp:68-70 and the same lines of every reader: an error string becomes an exception. *)
Definition guard {A} (m : res (heap * plot * A)) : res (heap * plot * outcome A) :=
  do ' (h, pl, x) <- m; OK (h, pl, match pl_err pl with Some e => Throws e | None => Returned x end).
(** An Array<T> of what a C function returned (and the values in it). *)
Definition object {A} (x : held A) : list A * arr :=
  (fst x, {| a_data := snd x; a_size := length (fst x); a_del := true |}).
Definition wrap {A} (m : res (heap * plot * held A)) : res (heap * plot * outcome (list A * arr)) :=
  do ' (h, pl, r) <- guard m; OK (h, pl, match r with Returned x => Returned (object x) | Throws e => Throws e end).

(** d3plot.cpp:65-136: the ids *)
Definition cpp_read_node_ids (h : heap) (pl : plot) := wrap (read_node_ids_mem h pl).
Definition cpp_read_solid_element_ids (h : heap) (pl : plot) := wrap (read_solid_element_ids_mem h pl).
Definition cpp_read_beam_element_ids (h : heap) (pl : plot) := wrap (read_beam_element_ids_mem h pl).
Definition cpp_read_shell_element_ids (h : heap) (pl : plot) := wrap (read_shell_element_ids_mem h pl).
Definition cpp_read_thick_shell_element_ids (h : heap) (pl : plot) := wrap (read_thick_shell_element_ids_mem h pl).
Definition cpp_read_all_element_ids (h : heap) (pl : plot) := wrap (read_all_element_ids_mem h pl).
Definition cpp_read_part_ids (h : heap) (pl : plot) := wrap (read_part_ids_mem h pl).
(** d3plot.cpp:395-434 *)
Definition cpp_read_solid_elements (h : heap) (pl : plot) := wrap (read_solid_elements_mem h pl).
Definition cpp_read_thick_shell_elements (h : heap) (pl : plot) := wrap (read_thick_shell_elements_mem h pl).
Definition cpp_read_beam_elements (h : heap) (pl : plot) := wrap (read_beam_elements_mem h pl).
Definition cpp_read_shell_elements (h : heap) (pl : plot) := wrap (read_shell_elements_mem h pl).
(** d3plot.cpp:318-325 (and 335-342 for words of 4 bytes) *)
Definition cpp_read_all_time (h : heap) (pl : plot) := wrap (do x <- read_all_time_mem h pl; OK (as_held x)).
(** d3plot.cpp:158-166, 183-191, 209-217: a vector of a state; 235-243, 261-269, 287-295: its words. *)
Definition cpp_read_node_data (h : heap) (pl : plot) (state : nat) (k : dkind) := wrap (do x <- node_data_mem h pl state k; OK (as_held x)).
Definition cpp_read_node_words (h : heap) (pl : plot) (state : nat) (k : dkind) := wrap (do x <- node_words_mem h pl state k; OK (as_held x)).

(** d3plot.cpp:436-449: the length of the object is that of the text before the first blank. *)
Definition cpp_read_title_mem (h : heap) (pl : plot) : res (heap * plot * outcome (list Z * arr)) :=
  do ' (h, pl, r) <- guard (read_title_mem h pl);
  match r with
  | Throws e => OK (h, pl, Throws e)
  | Returned None => UB (* title[0] of NULL *)
  | Returned (Some (t, p)) => do t <- trim t; OK (h, pl, Returned (object (t, Some p)))
  end.
(** d3plot.cpp:143-157: an object for every title, then the array of titles is freed. *)
Fixpoint title_objects (l : list (list Z)) (ps : list (option ptr)) : res (list (list Z * arr)) :=
  match l, ps with
  | t :: l, p :: ps => do t <- trim t; do r <- title_objects l ps; OK (object (t, p) :: r)
  | [], [] => OK []
  | _, _ => UB
  end.
Definition cpp_read_part_titles_mem (h : heap) (pl : plot) : res (heap * plot * outcome (list (list Z * arr))) :=
  do ' (h, pl, r) <- guard (read_part_titles_mem h pl);
  match r with
  | Throws e => OK (h, pl, Throws e)
  | Returned None => UB
  | Returned (Some (l, ps, p)) => do os <- title_objects l ps; do h <- h_free h p; OK (h, pl, Returned os)
  end.

(** d3plot.cpp:168-182, 193-207, 219-233 (245-259, 271-285, 297-311): every state is an array of its
    own, the first one owns the memory of all.  [values]: of one state. *)
Definition cpp_read_all_node_data (h : heap) (pl : plot) (k : dkind) : res (heap * plot * outcome (list Z * list (option arr))) :=
  do ' (h, pl, r) <- guard (read_all_node_data_mem h pl k);
  match r with
  | Throws e => OK (h, pl, Throws e)
  | Returned None => UB
  | Returned (Some (l, p)) => OK (h, pl, Returned (l, timed_from p (Z.to_nat (pl_cd pl NUMNP * 3)) (length (pl_states pl)) 0))
  end.

(** d3plot.cpp:459-475: a D3plotPart with the eight arrays of the part. *)
Definition cpp_read_part (h : heap) (pl : plot) (part_index : Z) : res (heap * plot * outcome (part * list (option ptr))) :=
  guard (do ' (h, pl, p, ps) <- read_part_mem h pl part_index; OK (h, pl, (p, ps))).
Definition cpp_read_part_by_id (h : heap) (pl : plot) (part_id : Z) (part_ids : option (list Z)) : res (heap * plot * outcome (part * list (option ptr))) :=
  guard (do ' (h, pl, p, ps) <- read_part_by_id_mem h pl part_id part_ids; OK (h, pl, (p, ps))).

(** The end of several objects, one after the other (of a std::vector). *)
Fixpoint destroy_all (h : heap) (os : list arr) : res heap :=
  match os with [] => OK h | a :: r => do h <- arr_destroy h a; destroy_all h r end.
