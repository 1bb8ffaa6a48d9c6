(** * What card fields mean *)
From Coq Require Import QArith Qpower.
From Verif Require Import CBase CardModel.
Open Scope nat_scope.
Open Scope list_scope.

(** The text of the field of width [w] at column [cur]. *)
Definition field (s : cstr) (cur w : nat) : list Z := firstn w (skipn cur s).

(** A card as the key file parser produces it, a field that starts inside the
    card and lies within the range of the 8 bit indices. *)
Definition in_card (s : cstr) (cur w : nat) : Prop :=
  is_cstr s /\ cur <= length s /\ cur + w < 255.

Definition blanks (l : list Z) : Prop := Forall (fun c => c = SPACE) l.
Definition digits (l : list Z) : Prop := Forall (fun c => (48 <= c <= 57)%Z) l.

(** Decimal value of a digit string. *)
Definition dec (l : list Z) : Z := fold_left (fun acc c => acc * 10 + (c - 48))%Z l 0%Z.

(** What may follow a number: nothing, or a blank and anything. *)
Definition ends (t : list Z) : Prop := t = [] \/ exists t', t = SPACE :: t'.

(** [[+-]d+] with leading blanks *)
Definition sign_text (sg : list Z) (v : Z) : Prop :=
  (sg = [] /\ v = 1%Z) \/ (sg = [PLUS] /\ v = 1%Z) \/ (sg = [MINUS] /\ v = (-1)%Z).

Definition exp_mark (c : Z) : bool := ((c =? 101) || (c =? 69))%Z.   (* 'e' or 'E' *)
(** The optional parts of a float: [. d*] and [e [+-] d+]. *)
Definition frac_text (fr : list Z) (o : option (list Z)) : Prop :=
  (fr = [] /\ o = None) \/ (exists ds, fr = DOT :: ds /\ digits ds /\ o = Some ds).
Definition exp_text (ex : list Z) (o : option Z) : Prop :=
  (ex = [] /\ o = None) \/
  (exists m sg v ds, ex = m :: sg ++ ds /\ exp_mark m = true /\ sign_text sg v /\ digits ds /\ ds <> [] /\
     (dec ds < 2 ^ 31)%Z /\ o = Some (v * dec ds)%Z).

(** A float field: blanks, sign, integer digits, fraction, exponent, and then
    nothing or a blank.  The integer digits may be missing in front of a
    fraction without exponent. *)
Definition float_text (f : list Z) (sg : Z) (ip : list Z) (fr : option (list Z)) (ex : option Z) : Prop :=
  exists b sgt frt ext t, f = b ++ sgt ++ ip ++ frt ++ ext ++ t /\
    blanks b /\ sign_text sgt sg /\ digits ip /\ frac_text frt fr /\ exp_text ext ex /\ ends t /\
    (ip <> [] \/ (fr <> None /\ ex = None)).

(** An integer field with the value [v]: blanks, an optional '-', digits. *)
Definition int_text (f : list Z) (v : Z) : Prop :=
  exists b neg ds t, f = b ++ neg ++ ds ++ t /\ blanks b /\ digits ds /\ ends t /\
    ((neg = [] /\ ds <> [] /\ v = dec ds) \/ (neg = [MINUS] /\ v = (- dec ds)%Z)).

(** What the type query calls an integer and a float: blanks, an optional
    sign, at least one digit; for a float a fraction with at least one digit
    or an exponent with at least one digit or both. *)
Definition int_typed (f : list Z) : Prop :=
  exists b sgt sg ip t, f = b ++ sgt ++ ip ++ t /\ blanks b /\ sign_text sgt sg /\
    digits ip /\ ip <> [] /\ ends t.
Definition exp_part (ex : list Z) : Prop :=
  exists m sg v ds, ex = m :: sg ++ ds /\ exp_mark m = true /\ sign_text sg v /\ digits ds /\ ds <> [].
Definition float_typed (f : list Z) : Prop :=
  exists b sgt sg ip frt ext t, f = b ++ sgt ++ ip ++ frt ++ ext ++ t /\ blanks b /\ sign_text sgt sg /\
    digits ip /\ ip <> [] /\ (frt = [] \/ exists ds, frt = DOT :: ds /\ digits ds /\ ds <> []) /\
    (ext = [] \/ exp_part ext) /\ (frt <> [] \/ ext <> []) /\ ends t.

(** The rational number such a field denotes. *)
Definition float_value (sg : Z) (ip : list Z) (fr : option (list Z)) (ex : option Z) : Q :=
  (inject_Z sg *
   (inject_Z (dec ip) + match fr with
                        | None => 0
                        | Some ds => inject_Z (dec ds) / inject_Z (10 ^ Z.of_nat (length ds))
                        end) *
   match ex with None => 1 | Some e => Qpower (inject_Z 10) e end)%Q.

(** Exact arithmetic. *)
Definition Qarith : farith :=
  {| F := Q; fofz := inject_Z; fadd := Qplus; fmul := Qmult; fdiv := Qdiv;
     fscale := fun x e => (x * Qpower (inject_Z 10) e)%Q |}.

(** Rounded arithmetic: every operation yields the rounded exact result, and
    [pow] yields some approximation [pw]. *)
Definition rounded (rnd : Q -> Q) (pw : Z -> Q) : farith :=
  {| F := Q; fofz := inject_Z; fadd := fun x y => rnd (x + y)%Q; fmul := fun x y => rnd (x * y)%Q;
     fdiv := fun x y => rnd (x / y)%Q; fscale := fun x e => rnd (x * pw e)%Q |}.

(** [x] and [y] agree up to [k] relative errors of size [u]. *)
Fixpoint growth (u : Q) (k : nat) : Q := match k with O => 1 | S k' => (1 + u) * growth u k' end.
Definition within (u : Q) (k : nat) (x y : Q) : Prop :=
  (0 <= x /\ y <= x * growth u k /\ x <= y * growth u k)%Q.

(** Rounding with relative error [u], symmetric about 0; every IEEE rounding
    is of this kind as long as no overflow or underflow happens. *)
Definition rounding (u : Q) (rnd : Q -> Q) (pw : Z -> Q) : Prop :=
  (0 <= u)%Q /\ (forall x y, x == y -> rnd x == rnd y)%Q /\ (forall x, rnd (- x) == - rnd x)%Q /\
  (forall x, (0 <= x)%Q -> within u 1 (rnd x) x) /\
  (forall e, within u 1 (pw e) (Qpower (inject_Z 10) e)).

(** [t] is [f] without its leading and trailing blanks. *)
Definition trimmed (f t : list Z) : Prop :=
  exists b1 b2, f = b1 ++ t ++ b2 /\ blanks b1 /\ blanks b2 /\
    (t <> [] -> hd SPACE t <> SPACE /\ last t SPACE <> SPACE).

(** A client iterating over a card with fields of width [w]: the visited
    offsets ([card_parse_begin]; while not [card_parse_done]: visit,
    [card_parse_next]). *)
Fixpoint iterate (fuel : nat) (s : cstr) (w cur : nat) : res (list nat) :=
  match fuel with
  | O => OOF
  | S f =>
    do d <- card_parse_done s cur;
    if d then OK []
    else do cur' <- card_parse_next_width s cur w; do r <- iterate f s w cur'; OK (cur :: r)
  end.
