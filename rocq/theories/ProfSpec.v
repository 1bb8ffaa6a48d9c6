(** * What a user of the profiler expects

    Readings of the clock are those in the program ([call] of ProfModel.v): a section is
    entered at [t0] (the work of the profiler) and [t1] (its own work), left at [e1] (the work of
    the profiler) and [e2]. *)
From Verif Require Import CBase ProfModel.
Open Scope Z_scope.

Definition zsum (l : list Z) : Z := fold_right Z.add 0 l.
(** What the profiler itself takes for a section and those inside of it. *)
Fixpoint overhead (c : call) : Z :=
  match c with Call _ t0 t1 inside e1 e2 => (e2 - t0) - (e1 - t1) + zsum (map overhead inside) end.
(** The time of a section, without what the profiler takes for the sections inside of
    it. *)
Definition own_time (c : call) : Z :=
  match c with Call _ t0 t1 inside e1 e2 => (e1 - t1) - zsum (map overhead inside) end.

(** What is measured: the names of the sections around it and its own, and its time.  A
    section directly inside of one with the same name is part of it. *)
Definition same_name (a : option cstr) (b : cstr) : bool := match a with Some a => if list_eq_dec Z.eq_dec a b then true else false | None => false end.
Fixpoint measured (around : option cstr) (c : call) : list (list cstr * Z) :=
  match c with
  | Call name t0 t1 inside e1 e2 =>
    if same_name around name then flat_map (measured around) inside
    else ([name], own_time c) :: map (fun r => (name :: fst r, snd r)) (flat_map (measured (Some name)) inside)
  end.
Definition all_measured (l : list call) : list (list cstr * Z) := flat_map (measured None) l.
(** The times measured under a path of names. *)
Definition times (q : list cstr) (l : list (list cstr * Z)) : list Z :=
  map snd (filter (fun r => if list_eq_dec (list_eq_dec Z.eq_dec) (fst r) q then true else false) l).

(** A report: paths with times; behind an entry are the ones inside of it. *)
Inductive tree_order : list cstr -> list (list cstr * Z) -> Prop :=
| T_nil q : tree_order q []
| T_cons q n t inner rest : tree_order (q ++ [n]) inner -> tree_order q rest -> tree_order q ((q ++ [n], t) :: inner ++ rest).
Definition outermost (l : list (list cstr * Z)) : list Z := map snd (filter (fun r => (length (fst r) =? 1)%nat) l).
Inductive descending : list Z -> Prop :=
| D_nil : descending []
| D_cons x l : (forall y, In y l -> y <= x) -> descending l -> descending (x :: l).
(** A line: dashes for the depth, the name, a blank and dots, 40 characters. *)
Definition column (q : list cstr) : cstr := firstn 40 (repeat 45 (length q - 1)%nat ++ last q [] ++ 32 :: repeat 46 40).
Definition line_of (r : list cstr * Z) : line := {| l_column := column (fst r); l_time := snd r |}.
(** The buffer for a line has 1024 characters. *)
Definition fits (q : list cstr) : Prop := (length q - 1 + length (last q []) < 1024)%nat.

(** What the report has to be. *)
Definition report_of (calls : list call) (r : list (list cstr * Z)) : Prop :=
  tree_order [] r /\ NoDup (map fst r) /\
  (forall q t, In (q, t) r <-> times q (all_measured calls) <> [] /\ t = zsum (times q (all_measured calls))).

(** Nothing is being measured and nothing is stored. *)
Definition idle (x : ctx) : Prop := x_cur x = None /\ x_top x = None /\ x_num x = 0%nat /\ forall b, (exists a, nth_error (x_heap x) b = Some (Some a)) -> False.

(** The readings of the clock never decrease. *)
Fixpoint readings (c : call) : list Z := match c with Call _ t0 t1 inside e1 e2 => t0 :: t1 :: flat_map readings inside ++ [e1; e2] end.
Inductive ascending : list Z -> Prop :=
| A_nil : ascending []
| A_cons x l : (forall y, In y l -> x <= y) -> ascending l -> ascending (x :: l).
