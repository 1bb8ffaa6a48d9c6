(** * Model of the Python classes of arrays and strings and of the sequence
    protocol

    python/conversions.hpp.  A result is a value or the kind of the exception:
    pybind11 turns std::runtime_error into RuntimeError, which is not an
    IndexError.  Arrays of characters (int8_t, uint8_t, char: String,
    SizedString, Int8Array, Uint8Array) are their bytes 0..255. *)
From Verif Require Import CBase KeyTableModel CppKeyModel.

Inductive pyexc := IndexError | RuntimeError | TypeError | ValueError | CastError.
Inductive pyres (A : Type) := Gives (v : A) | Raises (e : pyexc).
Arguments Gives {A} v.
Arguments Raises {A} e.

(** The right operand: a str (its UTF-8 bytes), a list or tuple (an element is
    [None] if it can not be cast), or anything else, in particular another
    array. *)
Inductive pyobj (E : Type) := OStr (utf8 : list Z) | OList (l : list (option E)) | OOther.
Arguments OStr {E} utf8.
Arguments OList {E} l.
Arguments OOther {E}.

(** array.hpp:333-347 [operator[]]: in range, or std::runtime_error. *)
Definition array_at {E} (a : list E) (i : nat) : pyres E :=
  match nth_error a i with Some x => Gives x | None => Raises RuntimeError end.

(** conversions.hpp:109-115 [array_getitem] *)
Definition array_getitem {E} (a : list E) (i : nat) : pyres E :=
  match array_at a i with Gives x => Gives x | Raises _ => Raises IndexError end.

(** conversions.hpp:117-140 [array_equals] for characters:
    [for (i = 0; i < size() - 1; i++)] with the wrap around of size_t;
    [other_bytes[i]] raises behind the end. *)
Fixpoint bytes_equal_from (fuel : nat) (a b : list Z) (i : nat) : res (pyres bool) :=
  match fuel with
  | O => OOF
  | S f =>
    if (Z.of_nat i <? u64 (Z.of_nat (length a) - 1))%Z then
      match nth_error b i with
      | None => OK (Raises IndexError)
      | Some y =>
        match array_at a i with
        | Raises e => OK (Raises e)
        | Gives x => if negb (x =? y)%Z then OK (Gives false) else bytes_equal_from f a b (i + 1)
        end
      end
    else OK (Gives true)
  end.
Definition bytes_equal {E} (a : list Z) (other : pyobj E) : res (pyres bool) :=
  match other with
  | OStr b => if negb (length a =? length b) then OK (Gives false) else bytes_equal_from (length a + 1) a b 0
  | _ => OK (Gives false)
  end.

(** conversions.hpp:142-161 [array_equals] for the other numbers; [eqb] is the
    == of the element type. *)
Fixpoint values_equal_from {E} (eqb : E -> E -> bool) (fuel : nat) (a : list E) (l : list (option E)) (i : nat) : res (pyres bool) :=
  match fuel with
  | O => OOF
  | S f =>
    if i <? length a then
      do o <- aget l i;
      match array_at a i, o with
      | Raises e, _ => OK (Raises e)
      | Gives x, None => OK (Raises CastError)
      | Gives x, Some y => if negb (eqb x y) then OK (Gives false) else values_equal_from eqb f a l (i + 1)
      end
    else OK (Gives true)
  end.
Definition values_equal {E} (eqb : E -> E -> bool) (a : list E) (other : pyobj E) : res (pyres bool) :=
  match other with
  | OList l => if negb (length a =? length l) then OK (Gives false) else values_equal_from eqb (length a + 1) a l 0
  | _ => OK (Gives false)
  end.

(** strncmp of two arrays: only the sign of the result. *)
Fixpoint strncmp (a b : list Z) (n i : nat) : res Z :=
  match n with
  | O => OK 0%Z
  | S n =>
    do x <- aget a i; do y <- aget b i;
    if negb (x =? y)%Z then OK (if (x <? y)%Z then (-1)%Z else 1%Z)
    else if (x =? NUL)%Z then OK 0%Z
    else strncmp a b n (i + 1)
  end.
(** conversions.hpp:163-178 [array_less_than] and 180-195
    [array_greater_than] for characters. *)
Definition bytes_less (a b : list Z) : res bool :=
  if length a <=? length b then do c <- strncmp a b (length a) 0; OK (c <? 0)%Z
  else do c <- strncmp b a (length b) 0; OK (0 <? c)%Z.
Definition bytes_greater (a b : list Z) : res bool :=
  if length a <=? length b then do c <- strncmp a b (length a) 0; OK (0 <? c)%Z
  else do c <- strncmp b a (length b) 0; OK (c <? 0)%Z.
(** 177 and 194: the other types *)
Definition values_less {E} (a b : list E) : pyres bool := Raises TypeError.

(** len() of a str: the bytes that begin a character. *)
Definition begins_char (b : Z) : bool := negb ((128 <=? b) && (b <? 192))%Z.
Definition str_len (utf8 : list Z) : nat := length (filter begins_char utf8).

(** conversions.hpp:78-107 [array_setitem] of an Array<char> with a str: the
    first byte is stored.  An index out of range is a std::runtime_error. *)
Definition chars_setitem (a : list Z) (i : nat) (utf8 : list Z) : res (pyres (list Z)) :=
  if str_len utf8 =? 1 then
    match nth_error utf8 0 with
    | None => OK (Raises IndexError)
    | Some c => match array_at a i with
      | Raises e => OK (Raises e)
      | Gives _ => do r <- aset a i c; OK (Gives r)
      end
    end
  else OK (Raises ValueError).

(** conversions.hpp:73-76 [array_constructor] and an access to element
    [index] of elements of [sz] bytes: size_t wraps around in [size * sz].
    (malloc is assumed to succeed.) *)
Definition new_block (sz size : Z) : Z := u64 (size * sz).
Definition new_access (sz size index : Z) : res (pyres unit) :=
  if (index <? size)%Z then if ((index + 1) * sz <=? new_block sz size)%Z then OK (Gives tt) else UB
  else OK (Raises RuntimeError).

(** ** Iteration

    An object without __iter__ is iterated by calling __getitem__ with 0, 1,
    2, ... until it raises IndexError; any other exception is passed on.
    [list(obj)]: *)
Fixpoint py_list {A} (fuel : nat) (get : nat -> res (pyres A)) (i : nat) : res (pyres (list A)) :=
  match fuel with
  | O => OOF
  | S f =>
    do x <- get i;
    match x with
    | Raises IndexError => OK (Gives [])
    | Raises e => OK (Raises e)
    | Gives x => do r <- py_list f get (i + 1);
      OK (match r with Gives l => Gives (x :: l) | Raises e => Raises e end)
    end
  end.

(** KeywordSlice.__getitem__ and Keyword.__getitem__ (pybind11_key.cpp:137-149)
    are the C++ operators, whose std::runtime_error is a RuntimeError. *)
Definition of_call {A} (c : res (call A)) : res (pyres A) := do x <- c; OK (match x with Returns a => Gives a | Throws => Raises RuntimeError end).
Definition keyword_getitem (k : keyword) (i : nat) : res (pyres cstr) := of_call (keyword_at k i).
Definition slice_getitem (kws : list keyword) (sl : nat * nat) (i : nat) : res (pyres keyword) := of_call (slice_at kws sl i).
