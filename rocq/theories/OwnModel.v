(** * Objects that own memory: the machine the C++ classes run on

    Memory is that of CppArrayModel.v.  Objects are numbered in the order of
    their construction; an object is [None] once it is destroyed.  Use of an
    object outside its lifetime is undefined.  (C++ has no code for this:
    it is the language's object model, reduced to what the classes of
    src/cpp need.) *)
From Verif Require Import CBase CppArrayModel.

Record store (A : Type) := { st_heap : heap; st_objs : list (option A) }.
Arguments st_heap {A}. Arguments st_objs {A}.

Definition store0 {A} : store A := {| st_heap := []; st_objs := [] |}.

Definition get_obj {A} (s : store A) (j : nat) : res A :=
  do o <- aget (st_objs s) j; match o with Some a => OK a | None => UB end.
Definition put_obj {A} (s : store A) (h : heap) (j : nat) (o : option A) : res (store A) :=
  do os <- aset (st_objs s) j o; OK {| st_heap := h; st_objs := os |}.
Definition new_obj {A} (s : store A) (h : heap) (a : A) : store A :=
  {| st_heap := h; st_objs := st_objs s ++ [Some a] |}.

(** free(p) in C: nothing happens to a null pointer. *)
Definition h_free_opt (h : heap) (p : option ptr) : res heap :=
  match p with Some p => h_free h p | None => OK h end.

(** Several frees one after the other. *)
Fixpoint h_free_all (h : heap) (l : list (option ptr)) : res heap :=
  match l with [] => OK h | p :: l => do h <- h_free_opt h p; h_free_all h l end.

(** Memory that is still allocated. *)
Definition live {A} (s : store A) (b : nat) : Prop := exists c, nth_error (st_heap s) b = Some (Some c).

(** The machine runs a program: a list of operations, each with what the
    caller sees. *)
Definition exec {A O R} (step : store A -> O -> res (store A * R)) : store A -> list O -> res (store A * list R) :=
  fix go s prog := match prog with
  | [] => OK (s, [])
  | o :: t => do ' (s, r) <- step s o; do ' (s, rs) <- go s t; OK (s, r :: rs)
  end.
