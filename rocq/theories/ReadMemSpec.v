(** * What a reader may do to memory *)
From Verif Require Import CBase CppArrayModel D3Model D3ReadModel D3PartModel.
Open Scope nat_scope.

Definition alive (h : heap) (k : nat) : Prop := exists c, nth_error h k = Some (Some c).
(** The blocks pointers lead to; null pointers lead to none. *)
Fixpoint blocks (ps : list (option ptr)) : list nat :=
  match ps with [] => [] | None :: r => blocks r | Some p :: r => fst p :: blocks r end.
(** After the call the memory from before is as it was, and of what was allocated by
    the call exactly the blocks of [ps] are left, every pointer being the start of a
    block of its own. *)
Definition leaves (h h' : heap) (ps : list (option ptr)) : Prop :=
  (forall k, k < length h -> nth_error h' k = nth_error h k) /\
  (forall k, length h <= k -> (alive h' k <-> In k (blocks ps))) /\
  (forall k, In k (blocks ps) -> length h <= k) /\
  NoDup (blocks ps) /\ forall p, In (Some p) ps -> snd p = 0.
Definition leaves_nothing (h h' : heap) : Prop := leaves h h' [].
(** The function with its memory ends like the function without. *)
Definition alike {A B} (v : res A) (m : res B) (R : A -> B -> Prop) : Prop :=
  match v, m with OK a, OK b => R a b | UB, UB => True | OOF, OOF => True | _, _ => False end.
(** An array result: the same plot and values; NULL for no values; nothing but the
    array is left. *)
Definition gives_array {P A} (h : heap) (a : P * list A) (b : heap * P * (list A * option ptr)) : Prop :=
  let '(pl, l) := a in let '(h', pl', (l', p)) := b in pl' = pl /\ l' = l /\ (p = None <-> l = []) /\ leaves h h' [p].
(** A result or an error ([None]): the same; nothing but the array is left, after an
    error nothing. *)
Definition gives_block {P A} (h : heap) (a : P * option A) (b : heap * P * option (A * ptr)) : Prop :=
  match a, b with
  | (pl, Some l), (h', pl', Some (l', p)) => pl' = pl /\ l' = l /\ leaves h h' [Some p]
  | (pl, None), (h', pl', None) => pl' = pl /\ leaves_nothing h h'
  | _, _ => False
  end.
(** An array, or after an error NULL and no values. *)
Definition gives_or_null {P A} (h : heap) (a : P * list A) (b : heap * P * option (list A * ptr)) : Prop :=
  match b with
  | (h', pl', Some (l', p)) => pl' = fst a /\ l' = snd a /\ leaves h h' [Some p]
  | (h', pl', None) => pl' = fst a /\ snd a = [] /\ leaves_nothing h h'
  end.
(** An array of strings: a block for every string and one for the array. *)
Definition gives_strings {P A} (h : heap) (a : P * list A) (b : heap * P * option (list A * list (option ptr) * ptr)) : Prop :=
  match b with
  | (h', pl', Some (l', ps, p)) => pl' = fst a /\ l' = snd a /\ length ps = length l' /\ ~ In None ps /\ leaves h h' (Some p :: ps)
  | (h', pl', None) => pl' = fst a /\ snd a = [] /\ leaves_nothing h h'
  end.
(** A part: its eight arrays, in the order of d3plot_free_part, each NULL exactly if
    it has no elements; the zeroed part has none. *)
Definition sizes (p : part) : list nat :=
  [length (p_solid_ids p); length (p_thick_shell_ids p); length (p_beam_ids p); length (p_shell_ids p);
   length (p_solid_indices p); length (p_thick_shell_indices p); length (p_beam_indices p); length (p_shell_indices p)].
Definition gives_part (h : heap) (a : plot * part) (b : heap * plot * part * list (option ptr)) : Prop :=
  let '(h', pl', p', ps) := b in pl' = fst a /\ p' = snd a /\ leaves h h' ps /\
  (p' = no_part /\ ps = [] \/ Forall2 (fun q n => q = None <-> n = 0) ps (sizes p')).
(** The connectivity of the elements the part has is passed. *)
Definition connectivity_passed (p : part) (t : tables) : Prop :=
  (p_solid_ids p = [] \/ t_solid_cons t <> None) /\ (p_beam_ids p = [] \/ t_beam_cons t <> None) /\
  (p_shell_ids p = [] \/ t_shell_cons t <> None) /\ (p_thick_shell_ids p = [] \/ t_thick_shell_cons t <> None).
(** The numbers of nodes, elements and parts are not negative (they are unsigned, but
    for the number of solids). *)
Definition counts_ok (pl : plot) : Prop := forall f, In f [NUMNP; NEL8; NEL2; NEL4; NELT; NMMAT] -> (0 <= pl_cd pl f)%Z.
(** The solids' connectivity has to be read, and can be. *)
Definition solids_read (pl : plot) (p : part) (t : tables) : Prop :=
  p_solid_ids p <> [] /\ t_solid_ids t <> None /\ t_solid_cons t = None /\ exists e l, read_solid_elements pl = OK (e, l) /\ l <> [].
(** The block of [p] has [n] elements. *)
Definition room (h : heap) (p : ptr) (n : nat) : Prop := exists c, nth_error h (fst p) = Some (Some c) /\ length c = n.
(** The number of values of a nodal vector does not wrap around. *)
Definition few_nodes (pl : plot) : Prop := (0 <= pl_cd pl NUMNP * 3 < 2 ^ 64)%Z.
