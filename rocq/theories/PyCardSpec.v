(** * What Python's Card.parse and Card.parse_whole promise *)
From Coq Require Import QArith Qpower.
From Verif Require Import CBase CardModel CardSpec PyCardModel.
Open Scope nat_scope.
Open Scope list_scope.

(** Numbers of 64 bits (the lowest one is left out). *)
Definition int64 (z : Z) : Prop := (- 2 ^ 63 < z < 2 ^ 63)%Z.

(** The value of a field: nothing for a blank field, an int or a float if it
    looks like one, or else its text. *)
Inductive py_means (f : list Z) : pyvalue Qarith -> Prop :=
| PM_none : blanks f -> py_means f PNone
| PM_int z : int_typed f -> int_text f z -> int64 z -> py_means f (PInt z)
| PM_float sg ip fr ex (q : Q) : float_typed f -> float_text f sg ip fr ex -> (q == float_value sg ip fr ex)%Q ->
    py_means f (PFloat (q : F Qarith))
| PM_text u : ~ blanks f -> ~ int_typed f -> ~ float_typed f -> trimmed f u -> py_means f (PText u).

(** Two values are the same (rational numbers may be written in different
    ways). *)
Definition same_value (v v' : pyvalue Qarith) : Prop :=
  match v, v' with
  | PNone, PNone => True
  | PInt z, PInt z' => z = z'
  | PFloat x, PFloat y => (x == y)%Q
  | PText t, PText t' => t = t'
  | _, _ => False
  end.

(** The column where field [k] begins, and its text. *)
Definition column (ws : list nat) (k : nat) : nat := list_sum (firstn k ws).
Definition field_at (s : cstr) (ws : list nat) (k : nat) : list Z := field s (column ws k) (nth k ws 0).

(** The card has room for the widths: it does not end inside of a field in
    front of the last one, and all columns are below 255. *)
Definition has_room (s : cstr) (ws : list nat) : Prop :=
  is_cstr s /\ column ws (length ws) < 255 /\
  forall k, S k < length ws -> ~ (column ws k < length s < column ws (S k)).
