(** * What a user of dro::D3plotPart expects: a part is a value

    No memory here.  A part is eight lists: the ids of its solids, thick
    shells, beams and shells, then their indices in the same order; an object
    is [None] once it is destroyed. *)
From Verif Require Import CBase CppArrayModel CppArraySpec CppPartModel.

Definition no_elements : list (list Z) := repeat [] 8.
Definition elements (c : list (list Z)) (f : nat) : list Z := nth f c [].

(** What read_part returns: as many indices as ids. *)
Definition is_part (c : list (list Z)) : Prop :=
  length c = 8 /\ forall f, f < 4 -> length (elements c f) = length (elements c (4 + f)).

Inductive pvstep (v : list (option (list (list Z)))) : pop -> seen -> list (option (list (list Z))) -> Prop :=
| P_adopt c : is_part c -> pvstep v (PAdopt c) Nothing (v ++ [Some c])
| P_move_new j c : nth_error v j = Some (Some c) -> pvstep v (PMoveNew j) Nothing (replace v j (Some no_elements) ++ [Some c])
| P_copy_new j c : nth_error v j = Some (Some c) -> pvstep v (PCopyNew j) Nothing (v ++ [Some c])
| P_move_to i j c d : nth_error v j = Some (Some c) -> nth_error v i = Some (Some d) -> i <> j ->
    pvstep v (PMoveTo i j) Nothing (replace (replace v i (Some c)) j (Some no_elements))
| P_copy_to i j c d : nth_error v j = Some (Some c) -> nth_error v i = Some (Some d) ->
    pvstep v (PCopyTo i j) Nothing (replace v i (Some c))
| P_get j f k c x : nth_error v j = Some (Some c) -> f < 8 -> nth_error (elements c f) k = Some x -> pvstep v (PGet j f k) (Value x) v
| P_get_range j f k c : nth_error v j = Some (Some c) -> f < 8 -> length (elements c f) <= k -> pvstep v (PGet j f k) Thrown v
| P_set j f k x c : nth_error v j = Some (Some c) -> f < 8 -> k < length (elements c f) ->
    pvstep v (PSet j f k x) Nothing (replace v j (Some (replace c f (replace (elements c f) k x))))
| P_set_range j f k x c : nth_error v j = Some (Some c) -> f < 8 -> length (elements c f) <= k -> pvstep v (PSet j f k x) Thrown v
| P_size j f c : nth_error v j = Some (Some c) -> f < 8 -> pvstep v (PSize j f) (Size (length (elements c f))) v
| P_destroy j c : nth_error v j = Some (Some c) -> pvstep v (PDestroy j) Nothing (replace v j None).

Inductive pvrun : list (option (list (list Z))) -> list pop -> list seen -> list (option (list (list Z))) -> Prop :=
| PR_done v : pvrun v [] [] v
| PR_step v o r v' t rs v'' : pvstep v o r v' -> pvrun v' t rs v'' -> pvrun v (o :: t) (r :: rs) v''.

(** [P] holds of every operation of a program, at the point where it is
    executed. *)
Inductive all_along (P : list (option (list (list Z))) -> pop -> Prop) : list (option (list (list Z))) -> list pop -> Prop :=
| PA_done v : all_along P v []
| PA_step v o r v' t : P v o -> pvstep v o r v' -> all_along P v' t -> all_along P v (o :: t).

(** The operation copies part [j]. *)
Definition copies (o : pop) (j : nat) : Prop := o = PCopyNew j \/ exists i, o = PCopyTo i j.

(** It does not copy a part that has thick shells, nor a part to itself. *)
Definition copy_fits (v : list (option (list (list Z)))) (o : pop) : Prop :=
  (forall j c, copies o j -> nth_error v j = Some (Some c) -> elements c THICK_IDS = []) /\ (forall i, o <> PCopyTo i i).

(** It does not copy at all and does not overwrite a part that has elements. *)
Definition no_copy_no_overwrite (v : list (option (list (list Z)))) (o : pop) : Prop :=
  (forall j, ~ copies o j) /\ (forall i j c, o = PMoveTo i j -> nth_error v i = Some (Some c) -> c = no_elements).
