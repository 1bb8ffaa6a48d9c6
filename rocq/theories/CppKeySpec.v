(** * What the C++ card and keyword interface promises *)
From Coq Require Import QArith Qpower.
From Verif Require Import CBase CardModel CardSpec KeyTableModel CppKeyModel.
Open Scope nat_scope.
Open Scope list_scope.

(** ** Numbers *)

(** The values of the integral types. *)
Definition in_range (t : int_type) (z : Z) : Prop :=
  match t with
  | TI8 => - 2 ^ 7 <= z < 2 ^ 7 | TU8 => 0 <= z < 2 ^ 8
  | TI16 => - 2 ^ 15 <= z < 2 ^ 15 | TU16 => 0 <= z < 2 ^ 16
  | TI32 => - 2 ^ 31 <= z < 2 ^ 31 | TU32 => 0 <= z < 2 ^ 32
  | TI64 => - 2 ^ 63 <= z < 2 ^ 63 | TU64 => 0 <= z < 2 ^ 64
  | TBool => z = 0 \/ z = 1
  end%Z.

(** Numbers whose magnitude a 64 bit accumulator can hold. *)
Definition moderate (z : Z) : Prop := (- 2 ^ 63 < z < 2 ^ 63)%Z.

(** ** Whole cards *)

(** The value of a field of the given type: blank fields are 0 or "". *)
Inductive means : vtype -> list Z -> value Qarith -> Prop :=
| M_int_blank t f : blanks f -> means (TInt t) f (VInt 0)
| M_float_blank f : blanks f -> means TFloat f (VFloat (inject_Z 0 : F Qarith))
| M_int t f z : int_text f z -> in_range t z -> moderate z -> means (TInt t) f (VInt z)
| M_float f sg ip fr ex (q : Q) : float_text f sg ip fr ex -> (q == float_value sg ip fr ex)%Q ->
    means TFloat f (VFloat (q : F Qarith))
| M_text f u : trimmed f u -> means TText f (VText u).

(** The width of a field (0 stands for the default of ten columns) and the
    column where field [k] begins. *)
Definition width (w : nat) : nat := match w with O => 10 | _ => w end.
Definition start (ws : list nat) (k : nat) : nat := list_sum (map width (firstn k ws)).

(** The text of field [k]. *)
Definition field_of (s : cstr) (ws : list nat) (k : nat) : list Z :=
  field s (start ws k) (width (nth k ws 0)).

(** A card that has room for [ws]: it ends where a field begins, or not before
    the last field begins.  All columns are below 255. *)
Definition fits (s : cstr) (ws : list nat) : Prop :=
  is_cstr s /\ start ws (length ws) < 255 /\
  ((exists j, j < length ws /\ length s = start ws j) \/ start ws (length ws - 1) <= length s).

(** The card ends inside of field [k], and another field was asked for. *)
Definition ends_inside (s : cstr) (ws : list nat) (k : nat) : Prop :=
  is_cstr s /\ start ws (length ws) < 255 /\ S k < length ws /\ start ws k < length s < start ws (S k).

(** ** Cards as objects

    A Card is a view of a card of the file, or a card of its own, or was moved
    from, or is destroyed. *)
Inductive ccard := CGone | CMoved | CView (k : nat) | COwn (x : card).

Fixpoint put {A} (l : list A) (i : nat) (x : A) : list A :=
  match l, i with
  | [], _ => []
  | _ :: t, O => x :: t
  | y :: t, S i => y :: put t i x
  end.

(** The card an object stands for. *)
Definition card_of (file : list card) (c : ccard) (x : card) : Prop :=
  match c with CView k => nth_error file k = Some x | COwn y => y = x | _ => False end.

(** Changing the card object [j] stands for. *)
Definition store (file : list card) (v : list ccard) (j : nat) (c : ccard) (x : card) : list card * list ccard :=
  match c with CView k => (put file k x, v) | _ => (file, put v j (COwn x)) end.

Definition present (v : list ccard) (j : nat) (c : ccard) : Prop := nth_error v j = Some c /\ c <> CGone.

(** One operation: file and objects before, what is seen, file and objects
    after. *)
Inductive cvstep (file : list card) (v : list ccard) : cop -> cseen -> list card -> list ccard -> Prop :=
| W_of k : k < length file -> cvstep file v (Of k) CNothing file (v ++ [CView k])
| W_copy_new j c x : present v j c -> card_of file c x -> cvstep file v (CCopyNew j) CNothing file (v ++ [COwn x])
| W_move_new j c : present v j c -> cvstep file v (CMoveNew j) CNothing file (put v j CMoved ++ [c])
| W_copy_to i j c x d : present v j c -> card_of file c x -> present v i d -> i <> j ->
    cvstep file v (CCopyTo i j) CNothing file (put v i (COwn x))
| W_move_to i j c d : present v j c -> present v i d -> i <> j ->
    cvstep file v (CMoveTo i j) CNothing file (put (put v i c) j CMoved)
| W_begin j w c x file' v' : present v j c -> card_of file c x ->
    store file v j c {| cd_string := cd_string x; cd_width := w; cd_index := 0 |} = (file', v') ->
    cvstep file v (CBegin j w) CNothing file' v'
| W_next j c x cur file' v' : present v j c -> card_of file c x ->
    card_parse_next_width (cd_string x) (cd_index x) (cd_width x) = OK cur ->
    store file v j c {| cd_string := cd_string x; cd_width := cd_width x; cd_index := cur |} = (file', v') ->
    cvstep file v (CNext j) CNothing file' v'
| W_next_width j w c x cur file' v' : present v j c -> card_of file c x ->
    card_parse_next_width (cd_string x) (cd_index x) w = OK cur ->
    store file v j c {| cd_string := cd_string x; cd_width := cd_width x; cd_index := cur |} = (file', v') ->
    cvstep file v (CNextWidth j w) CNothing file' v'
| W_ask j q c x r : present v j c -> card_of file c x -> q (cd_string x) (cd_index x) (cd_width x) = OK r ->
    cvstep file v (CAsk j q) (CAnswer r) file v
| W_destroy j c : present v j c -> cvstep file v (CDestroy j) CNothing file (put v j CGone).

Inductive cvrun : list card -> list ccard -> list cop -> list cseen -> list card -> list ccard -> Prop :=
| W_done file v : cvrun file v [] [] file v
| W_step file v o r file' v' t rs file'' v'' : cvstep file v o r file' v' -> cvrun file' v' t rs file'' v'' ->
    cvrun file v (o :: t) (r :: rs) file'' v''.

(** No assignment overwrites a card that owns memory. *)
Definition coverwrites (v : list ccard) (o : cop) : Prop :=
  exists i j x, (o = CMoveTo i j \/ o = CCopyTo i j) /\ nth_error v i = Some (COwn x).
Inductive cno_overwrite : list card -> list ccard -> list cop -> Prop :=
| X_done file v : cno_overwrite file v []
| X_step file v o r file' v' t : ~ coverwrites v o -> cvstep file v o r file' v' -> cno_overwrite file' v' t ->
    cno_overwrite file v (o :: t).

(** ** Keywords *)
Definition with_name (name : cstr) (k : keyword) : bool :=
  if list_eq_dec Z.eq_dec (kw_name k) name then true else false.
