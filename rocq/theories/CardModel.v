(** * Model of the card parsing functions of src/key.c (lines 806-1560)

    A card is its string, [current_index] and a value width (both uint8_t).
    Indices [i] are uint8_t and wrap around; comparisons such as
    [i - current_index < value_width] are done in [int] and are written
    [i < current_index + value_width].  Every loop is run with 600 units of
    fuel: loop control depends on [i] only, which has 256 values. *)
From Verif Require Import CBase StringModel.

Definition inc8 (i : nat) : nat := (i + 1) mod 256.
Definition FUEL : nat := 600.

Definition is_digit (c : Z) : bool := ((48 <=? c) && (c <=? 57))%Z.
Definition is_e (c : Z) : bool := ((c =? 101) || (c =? 69))%Z.   (* 'e' 'E' *)
Definition is_sign (c : Z) : bool := ((c =? PLUS) || (c =? MINUS))%Z.

(** [while (i < E && p(string[i])) i++] (the bound is tested first) *)
Fixpoint bscan (fuel : nat) (s : cstr) (E : nat) (p : Z -> bool) (i : nat) : res nat :=
  match fuel with
  | O => OOF
  | S f =>
    if i <? E then do c <- cget s i; if p c then bscan f s E p (inc8 i) else OK i else OK i
  end.

(** [while (p(string[i]) && i < E) i++] (the character is read first) *)
Fixpoint pscan (fuel : nat) (s : cstr) (E : nat) (p : Z -> bool) (i : nat) : res nat :=
  match fuel with
  | O => OOF
  | S f =>
    do c <- cget s i; if p c && (i <? E) then pscan f s E p (inc8 i) else OK i
  end.

(** key.c:806-813 [card_parse_begin]: current_index = 0. *)
Definition card_parse_begin : nat := 0.

(** key.c:823-837 [card_parse_next_width] (and 815-821 [card_parse_next] with
    the stored width); result: the new [current_index]. *)
Definition card_parse_next_width (s : cstr) (cur w : nat) : res nat :=
  do c <- cget s cur;
  if negb (c =? NUL)%Z then
    if cur <=? 255 - w then OK (cur + w)
    else
      (fix walk (fuel cur : nat) : res nat :=
         match fuel with
         | O => OOF
         | S f => do c <- cget s cur; if negb (c =? NUL)%Z then walk f (inc8 cur) else OK cur
         end) FUEL cur
  else OK cur.

(** key.c:839-846 [card_parse_done] *)
Definition card_parse_done (s : cstr) (cur : nat) : res bool :=
  do c <- cget s cur; OK (c =? NUL)%Z.

(** key.c:877-897: the digits of an integer; signed overflow is undefined. *)
Fixpoint int_digits (fuel : nat) (s : cstr) (E i : nat) (result : Z) : res (option Z) :=
  match fuel with
  | O => OOF
  | S f =>
    if i <? E then
      do c <- cget s i;
      if (c =? NUL)%Z then OK (Some result)
      else if is_digit c then
        let r := (result * 10 + (c - 48))%Z in
        if (r <? 2 ^ 63)%Z then int_digits f s E (inc8 i) r else UB
      else if (c =? SPACE)%Z then OK (Some result)
      else OK None
    else OK (Some result)
  end.

(** key.c:852-903 [card_parse_int_width]; [None]: returns 0, errno = EINVAL;
    [Some v]: returns v, errno = 0. *)
Definition card_parse_int_width (s : cstr) (cur w : nat) : res (option Z) :=
  let E := cur + w in
  do i <- bscan FUEL s E (fun c => c =? SPACE)%Z cur;
  if i =? E then OK None
  else
    do c <- cget s i;
    if (c =? NUL)%Z then OK None
    else
      let '(sign, i) := if (c =? MINUS)%Z then ((-1)%Z, inc8 i) else (1%Z, i) in
      do r <- int_digits FUEL s E i 0;
      OK (option_map (fun v => v * sign)%Z r).

(** The floating point operations the parser uses.  [fscale x e] is
    [x *= pow(10, e)]. *)
Record farith := {
  F : Type; fofz : Z -> F; fadd : F -> F -> F; fmul : F -> F -> F; fdiv : F -> F -> F;
  fscale : F -> Z -> F }.

(** Outcome: value and whether errno is EINVAL. *)
Definition fres (A : farith) : Type := (F A * bool)%type.

(** key.c:948-971 / 1152-1175, the integer part: early return, or
    [(i, result, has_integer)]. *)
Fixpoint float_int (A : farith) (fuel : nat) (s : cstr) (E i : nat) (result : F A) (has : bool)
  (sign : F A) : res (fres A + nat * F A * bool) :=
  match fuel with
  | O => OOF
  | S f =>
    if i <? E then
      do c <- cget s i;
      if (c =? NUL)%Z || (c =? DOT)%Z || is_e c then OK (inr (i, result, has))
      else if is_digit c then
        float_int A f s E (inc8 i)
          (fadd A (fmul A result (fofz A 10)) (fofz A (c - 48))) true sign
      else if (c =? SPACE)%Z then OK (inl (fmul A result sign, false))
      else OK (inl (fofz A 0, true))
    else OK (inr (i, result, has))
  end.

(** key.c:985-1012 / 1189-1216, the fraction: early return, or
    [(i, fraction, exponent)]. *)
Fixpoint float_frac (A : farith) (fuel : nat) (s : cstr) (E i : nat) (result fraction exponent : F A)
  (sign : F A) : res (fres A + nat * F A * F A) :=
  match fuel with
  | O => OOF
  | S f =>
    if i <? E then
      do c <- cget s i;
      if (c =? NUL)%Z || is_e c then OK (inr (i, fraction, exponent))
      else if is_digit c then
        float_frac A f s E (inc8 i) result
          (fadd A (fmul A fraction (fofz A 10)) (fofz A (c - 48))) (fmul A exponent (fofz A 10)) sign
      else if (c =? SPACE)%Z then
        OK (inl (fmul A (fadd A result (fdiv A fraction exponent)) sign, false))
      else OK (inl (fofz A 0, true))
    else OK (inr (i, fraction, exponent))
  end.

(** key.c:1059-1081 / 1263-1285, the exponent digits: [None] invalid
    character, [Some (v, has)].  Signed overflow is undefined. *)
Fixpoint exp_digits (fuel : nat) (s : cstr) (E i : nat) (v : Z) (has : bool)
  : res (option (Z * bool)) :=
  match fuel with
  | O => OOF
  | S f =>
    if i <? E then
      do c <- cget s i;
      if (c =? NUL)%Z then OK (Some (v, has))
      else if is_digit c then
        let v' := (v * 10 + (c - 48))%Z in
        if (v' <? 2 ^ 31)%Z then exp_digits f s E (inc8 i) v' true else UB
      else if (c =? SPACE)%Z then
        (* the early return at 1065-1074 scales without looking at
           has_exponent; it is only reached with has_exponent = 1 because a
           blank directly behind the 'e' is caught before *)
        OK (Some (v, true))
      else OK None
    else OK (Some (v, has))
  end.

(** key.c:909-1110 [card_parse_float32_width] and 1116-1317
    [card_parse_float64_width]: the same control flow over different
    arithmetics. *)
Definition card_parse_float_width (A : farith) (s : cstr) (cur w : nat) : res (fres A) :=
  let E := cur + w in
  let EINVAL : res (fres A) := OK (fofz A 0, true) in
  do i <- bscan FUEL s E (fun c => c =? SPACE)%Z cur;
  if i =? E then EINVAL
  else
    do c <- cget s i;
    if (c =? NUL)%Z then EINVAL
    else
      let '(sign, i) := if (c =? MINUS)%Z then (fofz A (-1), inc8 i)
                        else if (c =? PLUS)%Z then (fofz A 1, inc8 i) else (fofz A 1, i) in
      if i =? E then EINVAL
      else
        do c <- cget s i;
        if (c =? NUL)%Z || (c =? SPACE)%Z then EINVAL
        else
          do r <- float_int A FUEL s E i (fofz A 0) false sign;
          match r with
          | inl v => OK v
          | inr (i, result, has_integer) =>
            if i =? E then OK (fmul A result sign, false)
            else
              do c <- cget s i;
              if (c =? NUL)%Z then OK (fmul A result sign, false)
              else
                do q <- (if (c =? DOT)%Z then
                    do q <- float_frac A FUEL s E (inc8 i) result (fofz A 0) (fofz A 1) sign;
                    match q with
                    | inl v => OK (inl v)
                    | inr (i, fraction, exponent) =>
                      let v := fadd A result (fdiv A fraction exponent) in
                      if i =? E then OK (inl (fmul A v sign, false))
                      else
                        do c <- cget s i;
                        if (c =? NUL)%Z then OK (inl (fmul A v sign, false))
                        else OK (inr (i, v))
                    end
                  else OK (inr (i, result)));
                match q with
                | inl v => OK v
                | inr (i, mantissa) =>
                  do c <- cget s i;
                  if is_e c then
                    if negb has_integer then EINVAL
                    else
                      let i := inc8 i in
                      do c <- cget s i;
                      let '(esign, i) := if (c =? MINUS)%Z then ((-1)%Z, inc8 i)
                                         else if (c =? PLUS)%Z then (1%Z, inc8 i) else (1%Z, i) in
                      let bad : res (fres A) := OK (fmul A mantissa sign, true) in
                      if i =? E then bad
                      else
                        do c <- cget s i;
                        if (c =? NUL)%Z || (c =? SPACE)%Z then bad
                        else
                          do x <- exp_digits FUEL s E i 0 false;
                          match x with
                          | None => EINVAL
                          | Some (v, true) => OK (fmul A (fscale A mantissa (esign * v)) sign, false)
                          | Some (_, false) => bad
                          end
                  else OK (fmul A mantissa sign, false)
                end
          end.

(** key.c:1327-1360 [card_parse_string_width] *)
Definition card_parse_string_width (s : cstr) (cur w : nat) : res (list Z) :=
  do i <- (fix skip (fuel i : nat) : res nat :=
      match fuel with
      | O => OOF
      | S f =>
        if i <? w then do c <- cget s (i + cur);
          if negb (c =? NUL)%Z && (c =? SPACE)%Z then skip f (inc8 i) else OK i
        else OK i
      end) FUEL 0;
  do blank <- (if i =? w then OK true else do c <- cget s (i + cur); OK (c =? NUL)%Z);
  if blank then OK [NUL]
  else
    do e <- (fix last (fuel i end_index : nat) : res nat :=
      match fuel with
      | O => OOF
      | S f =>
        if i <? w then do c <- cget s (i + cur);
          if negb (c =? NUL)%Z then
            last f (inc8 i) (if negb (c =? SPACE)%Z then i else end_index)
          else OK end_index
        else OK end_index
      end) FUEL i i;
    string_clone_len (skipn (i + cur) (s ++ [NUL])) (e - i + 1).

(** key.c:1362-1371 [card_parse_string_width_no_trim] *)
Definition card_parse_string_width_no_trim (s : cstr) (cur w : nat) : res (list Z) :=
  string_clone_len (skipn cur (s ++ [NUL])) w.

(** key.c:1383-1389: the loop of [card_parse_whole] that finds the last
    character that is not a blank. *)
Fixpoint whole_last (fuel : nat) (s : cstr) (i end_index : nat) : res nat :=
  match fuel with
  | O => OOF
  | S f => do c <- cget s i;
    if negb (c =? NUL)%Z then whole_last f s (i + 1) (if negb (c =? SPACE)%Z then i else end_index)
    else OK end_index
  end.

(** key.c:1373-1397 [card_parse_whole]; here the indices are size_t. *)
Definition card_parse_whole (s : cstr) : res (list Z) :=
  do i <- scan (S (length s)) s (fun c => c =? SPACE)%Z 0;
  do e <- whole_last (S (length s)) s i i;
  string_clone_len (skipn i (s ++ [NUL])) (e - i + 1).

Inductive card_type := CARD_STRING | CARD_INT | CARD_FLOAT.

(** key.c:1460-1487 and 1488-1511: the part behind 'e'. *)
Definition type_exponent (s : cstr) (E i : nat) : res card_type :=
  let i := inc8 i in
  do c <- cget s i;
  let i := if is_sign c then inc8 i else i in
  do bad <- (if i =? E then OK true else do c <- cget s i; OK (negb (is_digit c)));
  if bad then OK CARD_STRING
  else
    do i <- pscan FUEL s E is_digit i;
    do c <- cget s i;
    if (c =? NUL)%Z || (c =? SPACE)%Z || (i =? E) then OK CARD_FLOAT else OK CARD_STRING.

(** key.c:1413-1514 [card_parse_get_type_width] *)
Definition card_parse_get_type_width (s : cstr) (cur w : nat) : res card_type :=
  if w =? 0 then OK CARD_STRING
  else
    let E := cur + w in
    do i <- pscan FUEL s E (fun c => c =? SPACE)%Z cur;
    do c <- cget s i;
    if (c =? NUL)%Z || (i =? E) then OK CARD_STRING
    else
      do j <- (if is_sign c then
          let i := inc8 i in
          if i =? E then OK None
          else do c <- cget s i; if is_digit c then OK (Some i) else OK None
        else if is_digit c then OK (Some (inc8 i))
        else OK None);
      match j with
      | None => OK CARD_STRING
      | Some i =>
        do i <- pscan FUEL s E is_digit i;
        do c <- cget s i;
        if (c =? NUL)%Z || (c =? SPACE)%Z || (i =? E) then OK CARD_INT
        else if (c =? DOT)%Z then
          let i := inc8 i in
          do bad <- (if i =? E then OK true else do c <- cget s i; OK (negb (is_digit c)));
          if bad then OK CARD_STRING
          else
            do i <- pscan FUEL s E is_digit i;
            do c <- cget s i;
            if (c =? NUL)%Z || (c =? SPACE)%Z || (i =? E) then OK CARD_FLOAT
            else if is_e c then type_exponent s E i else OK CARD_STRING
        else if is_e c then type_exponent s E i
        else OK CARD_STRING
      end.

(** key.c:1525-1547 [card_parse_is_empty_width] *)
Definition card_parse_is_empty_width (s : cstr) (cur w : nat) : res bool :=
  (fix go (fuel i : nat) : res bool :=
     match fuel with
     | O => OOF
     | S f =>
       if i <? cur + w then
         do c <- cget s i;
         if (c =? NUL)%Z then OK true
         else if negb (c =? SPACE)%Z then OK false
         else go f (inc8 i)
       else OK true
     end) FUEL cur.
