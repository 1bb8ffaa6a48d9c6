(** * Model of src/cpp/key.hpp and src/cpp/key.cpp: parsing cards, cards as
    objects, looking up and visiting keywords

    [OK (Returns x)]: the call returns x; [OK Throws]: it throws a C++
    exception. *)
From Verif Require Import CBase CardModel KeyTableModel.

Inductive call (A : Type) := Returns (a : A) | Throws.
Arguments Returns {A} a.
Arguments Throws {A}.

(** ** Card::parse *)

(** The integral types T (LP64: long and long long are 64 bits; char is
    signed). *)
Inductive int_type := TI8 | TU8 | TI16 | TU16 | TI32 | TU32 | TI64 | TU64 | TBool.

(** std::is_unsigned_v<T> *)
Definition is_unsigned (t : int_type) : bool :=
  match t with TU8 | TU16 | TU32 | TU64 | TBool => true | _ => false end.

(** std::numeric_limits<T>::min() and max() *)
Definition limit_min (t : int_type) : Z :=
  match t with
  | TI8 => -128 | TI16 => -32768 | TI32 => -2147483648 | TI64 => -9223372036854775808
  | _ => 0
  end%Z.
Definition limit_max (t : int_type) : Z :=
  match t with
  | TI8 => 127 | TU8 => 255 | TI16 => 32767 | TU16 => 65535
  | TI32 => 2147483647 | TU32 => 4294967295
  | TI64 => 9223372036854775807 | TU64 => 18446744073709551615
  | TBool => 1
  end%Z.

(** [value < std::numeric_limits<T>::min()], [value] a long long: for T = uint64_t the
    comparison is one of unsigned numbers (so never true), for the shorter types and bool
    both sides become long long. *)
Definition below_min (t : int_type) (value : Z) : bool :=
  match t with TU64 => (value mod 2 ^ 64 <? 0)%Z | _ => (value <? limit_min t)%Z end.

(** key.hpp:394-413, the integral branch of [Card::parse<T>(value_width)].
    [card_parse_int_width] returns 0 when it refuses the field (errno is not
    looked at).  For T = uint64_t [value > max()] is an unsigned comparison
    of a positive value, which is the same. *)
Definition parse_int (t : int_type) (s : cstr) (cur w : nat) : res (call Z) :=
  do o <- card_parse_int_width s cur w;
  let value := match o with Some v => v | None => 0%Z end in
  if (value <? 0)%Z && is_unsigned t then OK Throws
  else if (value <? 0)%Z && below_min t value then OK Throws
  else if (value >? 0)%Z && (value >? limit_max t)%Z then OK Throws
  else OK (Returns value).

(** The types of [parse] and the values; [TText] stands for the four string
    types, whose value is the C string at the start of the buffer. *)
Inductive vtype := TInt (t : int_type) | TFloat | TText.
Inductive value (A : farith) := VInt (z : Z) | VFloat (x : F A) | VText (t : list Z).
Arguments VInt {A} z.
Arguments VFloat {A} x.
Arguments VText {A} t.

(** key.hpp:393-446 [Card::parse<T>(value_width)] (389-391: with the stored
    width).  is_unsigned_v is false for floating point types. *)
Definition parse (A : farith) (t : vtype) (s : cstr) (cur w : nat) : res (call (value A)) :=
  match t with
  | TInt t => do r <- parse_int t s cur w; OK (match r with Returns z => Returns (VInt z) | Throws => Throws end)
  | TFloat => do v <- card_parse_float_width A s cur w; OK (Returns (VFloat (fst v)))
  | TText => do buf <- card_parse_string_width s cur w; do t <- cstring_at buf; OK (Returns (VText t))
  end.

(** key.hpp:366-387 [empty_value<T>()] *)
Definition empty_value (A : farith) (t : vtype) : value A :=
  match t with TInt _ => VInt 0 | TFloat => VFloat (fofz A 0) | TText => VText [] end.

Definition DEFAULT_VALUE_WIDTH : nat := 10.   (* key.h: DEFAULT_VALUE_WIDTH *)

(** key.hpp:477-501, 523-543: the fold over the requested types (one step and the rest) in
    [parse_whole_width] and [parse_whole(value_widths)].  The assignment of
    the values to the caller's variables (resp. the tuple) is the list that is
    returned; values assigned before an exception are not shown. *)
Definition parse_next (A : farith) (s : cstr) (tw : vtype * nat)
  (rest : nat -> res (call (list (value A)))) (cur : nat) : res (call (list (value A))) :=
  let t := fst tw in
  let w := if snd tw =? 0 then DEFAULT_VALUE_WIDTH else snd tw in
  do e <- card_parse_is_empty_width s cur w;
  do v <- (if e then OK (Returns (empty_value A t)) else parse A t s cur w);
  match v with
  | Throws => OK Throws
  | Returns v =>
    do cur <- card_parse_next_width s cur w;
    do r <- rest cur;
    OK (match r with Returns vs => Returns (v :: vs) | Throws => Throws end)
  end.
Definition parse_from (A : farith) (s : cstr) (l : list (vtype * nat)) : nat -> res (call (list (value A))) :=
  fold_right (parse_next A s) (fun _ => OK (Returns [])) l.
Definition parse_whole_width (A : farith) (s : cstr) (l : list (vtype * nat)) : res (call (list (value A))) :=
  parse_from A s l card_parse_begin.

(** key.hpp:456-473, 505-521 [parse_whole]: [begin()] stores the default
    width, which [is_empty()], [parse()] and [next()] use. *)
Definition parse_next_default (A : farith) (s : cstr) (t : vtype)
  (rest : nat -> res (call (list (value A)))) (cur : nat) : res (call (list (value A))) :=
  do e <- card_parse_is_empty_width s cur DEFAULT_VALUE_WIDTH;
  do v <- (if e then OK (Returns (empty_value A t)) else parse A t s cur DEFAULT_VALUE_WIDTH);
  match v with
  | Throws => OK Throws
  | Returns v =>
    do cur <- card_parse_next_width s cur DEFAULT_VALUE_WIDTH;
    do r <- rest cur;
    OK (match r with Returns vs => Returns (v :: vs) | Throws => Throws end)
  end.
Definition parse_whole (A : farith) (s : cstr) (l : list vtype) : res (call (list (value A))) :=
  fold_right (parse_next_default A s) (fun _ => OK (Returns [])) l card_parse_begin.

(** ** Card objects *)

(** A card_t: string, value_width, current_index.  A card_t that a Card owns
    is allocated and freed together with its string, so both are one block. *)
Record card := { cd_string : cstr; cd_width : nat; cd_index : nat }.

(** key.hpp:145-147: the members of Card; a handle is a block number. *)
Record cobj := { co_handle : option nat; co_del : bool }.

(** Memory: the cards of the key file come first, the others were allocated
    by copies.  Objects in the order of their construction. *)
Record cmach := { cm_heap : list (option card); cm_objs : list (option cobj) }.

Definition cstart (file : list card) : cmach := {| cm_heap := map Some file; cm_objs := [] |}.

Inductive cop :=
| Of (k : nat)                                        (* keyword[k], key.cpp:42-43, 163-169: Card(&cards[k]) *)
| CCopyNew (j : nat)                                  (* Card(j) *)
| CMoveNew (j : nat)                                  (* Card(std::move(j)) *)
| CCopyTo (i j : nat)                                 (* i = j *)
| CMoveTo (i j : nat)                                 (* i = std::move(j) *)
| CBegin (j w : nat)                                  (* j.begin(w) *)
| CNext (j : nat)                                     (* j.next() *)
| CNextWidth (j w : nat)                              (* j.next(w) *)
| CAsk (j : nat) (q : cstr -> nat -> nat -> res Z)    (* any const member function: a function of string, current_index and value_width *)
| CDestroy (j : nat).

Inductive cseen := CNothing | CAnswer (z : Z).

Definition cobj_at (s : cmach) (j : nat) : res cobj :=
  do o <- aget (cm_objs s) j; match o with Some c => OK c | None => UB end.
(** [*m_handle]; null and freed memory may not be used. *)
Definition deref (s : cmach) (c : cobj) : res (nat * card) :=
  match co_handle c with
  | None => UB
  | Some b => do x <- aget (cm_heap s) b; match x with Some x => OK (b, x) | None => UB end
  end.
Definition cadd (s : cmach) (c : cobj) : cmach := {| cm_heap := cm_heap s; cm_objs := cm_objs s ++ [Some c] |}.
Definition cset (s : cmach) (j : nat) (c : option cobj) : res cmach :=
  do os <- aset (cm_objs s) j c; OK {| cm_heap := cm_heap s; cm_objs := os |}.
Definition cput (s : cmach) (b : nat) (x : option card) : res cmach :=
  do h <- aset (cm_heap s) b x; OK {| cm_heap := h; cm_objs := cm_objs s |}.

(** key.cpp:61-68 [operator=(const Card&)] (40: the copy constructor) for two
    different objects: the memory with the copy and the object. *)
Definition ccopy (s : cmach) (rhs : cobj) : res (cmach * cobj) :=
  do ' (_, x) <- deref s rhs;
  OK ({| cm_heap := cm_heap s ++ [Some x]; cm_objs := cm_objs s |},
      {| co_handle := Some (length (cm_heap s)); co_del := true |}).

(** key.cpp:53-59 [operator=(Card&&)] (38: the move constructor). *)
Definition cmoved : cobj := {| co_handle := None; co_del := false |}.

Definition cstep (s : cmach) (o : cop) : res (cmach * cseen) :=
  match o with
  | Of k => OK (cadd s {| co_handle := Some k; co_del := false |}, CNothing)
  | CCopyNew j => do r <- cobj_at s j; do ' (s, c) <- ccopy s r; OK (cadd s c, CNothing)
  | CMoveNew j => do r <- cobj_at s j; do s <- cset s j (Some cmoved); OK (cadd s r, CNothing)
  | CCopyTo i j => do r <- cobj_at s j; do _ <- cobj_at s i;
    if i =? j then UB   (* strdup of the uninitialised string of the new block *)
    else do ' (s, c) <- ccopy s r; do s <- cset s i (Some c); OK (s, CNothing)
  | CMoveTo i j => do r <- cobj_at s j; do _ <- cobj_at s i;
    do s <- cset s i (Some r); do s <- cset s j (Some cmoved); OK (s, CNothing)
  | CBegin j w => do c <- cobj_at s j; do ' (b, x) <- deref s c;
    do s <- cput s b (Some {| cd_string := cd_string x; cd_width := w; cd_index := card_parse_begin |}); OK (s, CNothing)
  | CNext j => do c <- cobj_at s j; do ' (b, x) <- deref s c;
    do cur <- card_parse_next_width (cd_string x) (cd_index x) (cd_width x);
    do s <- cput s b (Some {| cd_string := cd_string x; cd_width := cd_width x; cd_index := cur |}); OK (s, CNothing)
  | CNextWidth j w => do c <- cobj_at s j; do ' (b, x) <- deref s c;
    do cur <- card_parse_next_width (cd_string x) (cd_index x) w;
    do s <- cput s b (Some {| cd_string := cd_string x; cd_width := cd_width x; cd_index := cur |}); OK (s, CNothing)
  | CAsk j q => do c <- cobj_at s j; do ' (_, x) <- deref s c;
    do r <- q (cd_string x) (cd_index x) (cd_width x); OK (s, CAnswer r)
  (* key.cpp:45-51 [~Card()] *)
  | CDestroy j => do c <- cobj_at s j;
    do s <- (if co_del c then do ' (b, _) <- deref s c; cput s b None else OK s);
    do s <- cset s j None; OK (s, CNothing)
  end.

Fixpoint crun (s : cmach) (prog : list cop) : res (cmach * list cseen) :=
  match prog with
  | [] => OK (s, [])
  | o :: t => do ' (s, r) <- cstep s o; do ' (s, rs) <- crun s t; OK (s, r :: rs)
  end.

(** ** Keywords *)

(** [name.c_str()] of a std::string: up to the first NUL. *)
Fixpoint c_str (name : list Z) : cstr :=
  match name with [] => [] | c :: t => if (c =? NUL)%Z then [] else c :: c_str t end.

(** key.hpp:45-50 THROW_KEY_FILE_EXCEPTION: [sprintf] into 1024 bytes. *)
Definition throw_message {A} (message : list Z) : res (call A) :=
  if length message + 1 <=? 1024 then OK Throws else UB.

(** key.cpp:204-214 [Keywords::operator[](name)]: the slice as (first index,
    size). *)
Definition keywords_at (kws : list keyword) (name : list Z) : res (call (nat * nat)) :=
  do r <- key_file_get_slice (map kw_name kws) (c_str name);
  match r with
  | None => throw_message (bs "The keyword """ ++ c_str name ++ bs """ could not be found")
  | Some sl => OK (Returns sl)
  end.

(** key.cpp:174-180 [KeywordSlice::operator[]] *)
Definition slice_at (kws : list keyword) (sl : nat * nat) (index : nat) : res (call keyword) :=
  if (snd sl =? 0) || (snd sl - 1 <? index) then OK Throws
  else do k <- aget kws (fst sl + index); OK (Returns k).

(** key.hpp:207-262 [for (auto kw : slice)]: the iterator is (m_data,
    m_left); it ends when m_data is null.  [m_size - 1] wraps around. *)
Definition slice_begin (sl : nat * nat) : option nat * Z := (Some (fst sl), u64 (Z.of_nat (snd sl) - 1)).
Definition slice_next (it : option nat * Z) : option nat * Z :=
  if (snd it =? 0)%Z then (None, snd it) else (option_map S (fst it), (snd it - 1)%Z).
Fixpoint slice_walk (fuel : nat) (kws : list keyword) (it : option nat * Z) : res (list keyword) :=
  match fuel with
  | O => OOF
  | S f =>
    match fst it with
    | None => OK []
    | Some p => do k <- aget kws p; do r <- slice_walk f kws (slice_next it); OK (k :: r)
    end
  end.
Definition slice_all (kws : list keyword) (sl : nat * nat) : res (list keyword) :=
  slice_walk (length kws + 2) kws (slice_begin sl).

(** key.cpp:163-169 [Keyword::operator[]]: the card's string. *)
Definition keyword_at (k : keyword) (index : nat) : res (call cstr) :=
  if (length (kw_cards k) =? 0) || (length (kw_cards k) - 1 <? index) then OK Throws
  else do c <- aget (kw_cards k) index; OK (Returns c).

(** key.hpp:158-201 [for (auto card : keyword)]: indices from 0 until
    num_cards is met. *)
Fixpoint cards_walk (fuel : nat) (k : keyword) (index : nat) : res (list cstr) :=
  match fuel with
  | O => OOF
  | S f =>
    if negb (index =? length (kw_cards k)) then
      do c <- aget (kw_cards k) index; do r <- cards_walk f k (index + 1); OK (c :: r)
    else OK []
  end.
Definition cards_all (k : keyword) : res (list cstr) := cards_walk (length (kw_cards k) + 1) k 0.
