(** * What the members of the two structures are *)
From Coq Require Import QArith.
From Verif Require Import CBase CardModel CardSpec.
Open Scope nat_scope.
Open Scope list_scope.

(** The [i]-th field of 10 columns of a card, if the card reaches that far. *)
Definition fld (s : cstr) (i : nat) : option (list Z) :=
  if 10 * i <? length s then Some (field s (10 * i) 10) else None.

(** Field [i] of card [k]; absent if there is no such card. *)
Definition cfld (cards : list cstr) (k i : nat) : option (list Z) :=
  match nth_error cards k with Some s => fld s i | None => None end.

(** Truncation towards zero. *)
Definition Qtrunc (q : Q) : Z := Z.quot (Qnum q) (Zpos (Qden q)).

(** The conversion of a double to int64_t in exact arithmetic. *)
Definition Qftoi (q : Q) : res Z :=
  let z := Qtrunc q in if ((- 2 ^ 63 <=? z) && (z <? 2 ^ 63))%Z then OK z else UB.

(** An integer member with default [d] takes the value of an integer field,
    the truncated value of a float field, and [d] if there is no number. *)
Definition int_member (f : option (list Z)) (d v : Z) : Prop :=
  match f with
  | None => v = d
  | Some f =>
    (int_typed f /\ int_text f v) \/
    (float_typed f /\ exists sg ip fr ex, float_text f sg ip fr ex /\ v = Qtrunc (float_value sg ip fr ex)) \/
    (~ int_typed f /\ ~ float_typed f /\ v = d)
  end.

Definition float_member (f : option (list Z)) (d v : Q) : Prop :=
  match f with
  | None => (v == d)%Q
  | Some f =>
    ((int_typed f \/ float_typed f) /\ exists sg ip fr ex, float_text f sg ip fr ex /\ (v == float_value sg ip fr ex)%Q) \/
    (~ int_typed f /\ ~ float_typed f /\ (v == d)%Q)
  end.

(** A string member: NULL if absent, otherwise the trimmed field. *)
Definition str_member (f : option (list Z)) (m : option (list Z)) : Prop :=
  match f, m with
  | None, None => True
  | Some f, Some buf => exists t, cstring_at buf = OK t /\ trimmed f t
  | _, _ => False
  end.

(** A field the integer members can be read from: no '+', and a float must
    fit into 64 bits. *)
Definition int_readable (f : option (list Z)) : Prop :=
  forall t, f = Some t -> ~ In PLUS t /\
    forall sg ip fr ex, float_text t sg ip fr ex ->
      (- 2 ^ 63 <= Qtrunc (float_value sg ip fr ex) < 2 ^ 63)%Z.

(** A card whose columns are filled up to a multiple of 10. *)
Definition padded (s : cstr) : Prop := is_cstr s /\ length s <= 250 /\ Nat.divide 10 (length s).

(** INCLUDE_TRANSFORM: which member comes from which card and field
    (ls-dyna manual vol. I, *INCLUDE_TRANSFORM). *)
From Verif Require Import TransformModel.
Definition it_meaning (cards : list cstr) (it : include_transform Qarith) : Prop :=
  str_member (nth_error cards 0) (file_name it) /\
  (int_member (cfld cards 1 0) 0 (idnoff it) /\ int_member (cfld cards 1 1) 0 (ideoff it) /\
   int_member (cfld cards 1 2) 0 (idpoff it) /\ int_member (cfld cards 1 3) 0 (idmoff it) /\
   int_member (cfld cards 1 4) 0 (idsoff it) /\ int_member (cfld cards 1 5) 0 (idfoff it) /\
   int_member (cfld cards 1 6) 0 (iddoff it)) /\
  (int_member (cfld cards 2 0) 0 (idroff it) /\ str_member (cfld cards 2 2) (prefix it) /\
   str_member (cfld cards 2 3) (suffix it)) /\
  (float_member (cfld cards 3 0) 1 (fctmas it) /\ float_member (cfld cards 3 1) 1 (fcttim it) /\
   float_member (cfld cards 3 2) 1 (fctlen it) /\ str_member (cfld cards 3 3) (fcttem it) /\
   int_member (cfld cards 3 4) 0 (incout1 it)) /\
  int_member (cfld cards 4 0) 0 (tranid it).

(** Cards this can be said of: C strings, the value cards padded to a
    multiple of 10 columns and at most 250 wide, and readable integers. *)
Definition it_cards_ok (cards : list cstr) : Prop :=
  Forall is_cstr cards /\
  (forall k s, 1 <= k <= 3 -> nth_error cards k = Some s -> padded s) /\
  (forall j, j < 7 -> int_readable (cfld cards 1 j)) /\ int_readable (cfld cards 2 0) /\
  int_readable (cfld cards 3 4) /\ int_readable (cfld cards 4 0).

(** DEFINE_TRANSFORMATION: an option card holds a name and 7 parameters. *)
Definition option_meaning (s : cstr) (o : transformation_option Qarith) : Prop :=
  match fld s 0 with
  | None => cstring_at (to_name o) = OK (bs "NULL")
  | Some f => exists t, cstring_at (to_name o) = OK t /\ trimmed f t
  end /\
  length (to_params o) = 7 /\
  forall j, j < 7 -> float_member (fld s (1 + j)) 0 (nth j (to_params o) 0%Q).

(** [n] is the number of the first option card. *)
Definition dt_meaning (cards : list cstr) (is_title : bool) (dt : define_transformation Qarith) : Prop :=
  let n := if is_title then 2 else 1 in
  (if is_title then str_member (nth_error cards 0) (dt_title dt) else dt_title dt = None) /\
  int_member (cfld cards (n - 1) 0) 0 (dt_tranid dt) /\
  Forall2 option_meaning (skipn n cards) (dt_options dt).

Definition dt_cards_ok (cards : list cstr) (is_title : bool) : Prop :=
  let n := if is_title then 2 else 1 in
  Forall is_cstr cards /\ Forall padded (skipn n cards) /\ int_readable (cfld cards (n - 1) 0).
