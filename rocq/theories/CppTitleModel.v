(** * Model of dro::D3plot::read_title and read_part_titles (src/cpp/d3plot.cpp) *)
From Verif Require Import CBase BinModel D3BufModel D3Model D3ReadModel CppPartNodesModel.
Open Scope Z_scope.

(** d3plot.cpp:151-154, 443-446: [while (title[j] != ' ') j++;] over the memory
    of the string, which ends behind the terminating NUL. *)
Fixpoint first_blank (mem : list Z) (j : nat) : res nat :=
  match mem with
  | [] => UB
  | c :: t => if c =? SPACE then OK j else first_blank t (j + 1)
  end.

(** The string of a C function and the length the wrapper gives it. *)
Definition trim (title : list Z) : res (list Z) :=
  do j <- first_blank (title ++ [NUL]) 0; OK (firstn j title).

Fixpoint trim_all (titles : list (list Z)) : res (list (list Z)) :=
  match titles with [] => OK [] | t :: r => do t <- trim t; do r <- trim_all r; OK (t :: r) end.

(** d3plot.cpp:436-449 *)
Definition cpp_read_title (pl : plot) : res (plot * outcome (list Z)) :=
  do ' (pl, t) <- or_throw (read_title pl);
  match t with
  | Returned t => do t <- trim t; OK (pl, Returned t)
  | Throws e => OK (pl, Throws e)
  end.
(** d3plot.cpp:138-161 *)
Definition cpp_read_part_titles (pl : plot) : res (plot * outcome (list (list Z))) :=
  do ' (pl, t) <- or_throw (read_part_titles pl);
  match t with
  | Returned t => do t <- trim_all t; OK (pl, Returned t)
  | Throws e => OK (pl, Throws e)
  end.
