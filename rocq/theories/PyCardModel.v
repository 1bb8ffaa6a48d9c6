(** * Model of the Python class Card

    python/pybind11_key.cpp:41-127 on top of the C++ class Card
    (CppKeyModel.v).  A value width is a uint8_t (pybind11 refuses other
    numbers, which is not modelled). *)
From Verif Require Import CBase StringModel CardModel KeyTableModel CppKeyModel.

(** What [rv.append] and the variant of [python_card_parse] hold. *)
Inductive pyvalue (A : farith) := PNone | PInt (z : Z) | PFloat (x : F A) | PText (t : list Z).
Arguments PNone {A}.
Arguments PInt {A} z.
Arguments PFloat {A} x.
Arguments PText {A} t.

(** pybind11_key.cpp:57-72 (the body of the loop) and 88-126
    [python_card_parse]: [trim] is its argument [trim_string], the loop always
    trims.  The two branches of [python_card_parse] differ in the width (the
    stored one or the given one) only. *)
Definition py_parse (A : farith) (trim : bool) (s : cstr) (cur w : nat) : res (call (pyvalue A)) :=
  do e <- card_parse_is_empty_width s cur w;
  if (e : bool) then OK (Returns PNone)
  else
    do ty <- card_parse_get_type_width s cur w;
    match ty with
    | CARD_INT => do r <- parse_int TI64 s cur w; OK (match r with Returns z => Returns (PInt z) | Throws => Throws end)
    | CARD_FLOAT => do v <- card_parse_float_width A s cur w; OK (Returns (PFloat (fst v)))
    | CARD_STRING =>
      do buf <- (if trim then card_parse_string_width s cur w else card_parse_string_width_no_trim s cur w);
      do t <- cstring_at buf; OK (Returns (PText t))
    end.

(** pybind11_key.cpp:47-75 with a list of widths: one round for each width. *)
Fixpoint py_whole_from (A : farith) (s : cstr) (ws : list nat) (cur : nat) : res (call (list (pyvalue A))) :=
  match ws with
  | [] => OK (Returns [])
  | w :: ws =>
    do v <- py_parse A true s cur w;
    match v with
    | Throws => OK Throws
    | Returns v =>
      do cur <- card_parse_next_width s cur w;
      do r <- py_whole_from A s ws cur;
      OK (match r with Returns vs => Returns (v :: vs) | Throws => Throws end)
    end
  end.

(** The same without widths: rounds of ten columns while the card is not
    done. *)
Fixpoint py_whole_default (A : farith) (fuel : nat) (s : cstr) (cur : nat) : res (call (list (pyvalue A))) :=
  match fuel with
  | O => OOF
  | S f =>
    do d <- card_parse_done s cur;
    if (d : bool) then OK (Returns [])
    else
      do v <- py_parse A true s cur DEFAULT_VALUE_WIDTH;
      match v with
      | Throws => OK Throws
      | Returns v =>
        do cur <- card_parse_next_width s cur DEFAULT_VALUE_WIDTH;
        do r <- py_whole_default A f s cur;
        OK (match r with Returns vs => Returns (v :: vs) | Throws => Throws end)
      end
  end.

(** pybind11_key.cpp:41-76 [python_card_parse_whole]; [begin()] sets the
    current index to 0. *)
Definition py_parse_whole (A : farith) (s : cstr) (ws : list nat) : res (call (list (pyvalue A))) :=
  match ws with
  | [] => py_whole_default A FUEL s card_parse_begin
  | _ => py_whole_from A s ws card_parse_begin
  end.
