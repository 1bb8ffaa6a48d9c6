(** * Shared vocabulary of the model: outcomes, C strings, arrays, loops.

    Nothing in this file models repository code; it fixes how C notions are
    represented.  Bytes are [Z] in 0..255, a C string is the list of its bytes
    before the terminating NUL, an array is a list, an index is a [nat]. *)
From Coq Require Export String Ascii.
From Coq Require Export ZArith Bool Arith Lia List.
From Coq Require Export ZifyBool ZifyNat ZifyN.
Export ListNotations.
Open Scope list_scope.
Open Scope nat_scope.

(** Outcome of running C code: a value, undefined behaviour (out of bounds
    access, underflowed length, violated assertion), or the model's loop fuel
    was exhausted (never identified with a normal result). *)
Inductive res (A : Type) : Type :=
| OK (a : A)
| UB
| OOF.
Arguments OK {A} a.
Arguments UB {A}.
Arguments OOF {A}.

Definition bind {A B} (x : res A) (f : A -> res B) : res B :=
  match x with
  | OK a => f a
  | UB => UB
  | OOF => OOF
  end.

Notation "'do' x <- a ; b" := (bind a (fun x => b))
  (at level 200, x name, a at level 100, b at level 200).
Notation "'do' ' p <- a ; b" := (bind a (fun x => let 'p := x in b))
  (at level 200, p pattern, a at level 100, b at level 200).

(** Array read [a[i]]. *)
Definition aget {A} (a : list A) (i : nat) : res A :=
  match nth_error a i with
  | Some x => OK x
  | None => UB
  end.

(** Array write [a[i] = v]. *)
Fixpoint aset {A} (a : list A) (i : nat) (v : A) : res (list A) :=
  match a, i with
  | [], _ => UB
  | _ :: t, O => OK (v :: t)
  | x :: t, S i' => do t' <- aset t i' v; OK (x :: t')
  end.

(** Character of a NUL terminated string: the terminator is readable,
    anything behind it is not. *)
Notation cstr := (list Z) (only parsing).
Definition cget (s : cstr) (i : nat) : res Z := aget (s ++ [0%Z]) i.

(** A byte string without NUL, i.e. a possible C string content. *)
Definition is_cstr (s : cstr) : Prop := Forall (fun b => (0 < b < 256)%Z) s.

Fixpoint bs (s : string) : list Z :=
  match s with
  | EmptyString => []
  | String c t => Z.of_nat (nat_of_ascii c) :: bs t
  end.

(** [while] loop: [step] returns either the next loop state or the result. *)
Fixpoint loop {S R} (fuel : nat) (step : S -> res (S + R)) (s : S) : res R :=
  match fuel with
  | O => OOF
  | Datatypes.S fuel' =>
    match step s with
    | OK (inl s') => loop fuel' step s'
    | OK (inr r) => OK r
    | UB => UB
    | OOF => OOF
    end
  end.

(** [strcmp]: only the sign of the C result is specified, so the model
    returns -1, 0 or 1.  Comparison is on unsigned bytes. *)
Fixpoint strcmp (a b : cstr) : Z :=
  match a, b with
  | [], [] => 0%Z
  | [], _ :: _ => (-1)%Z
  | _ :: _, [] => 1%Z
  | x :: a', y :: b' =>
    if (x =? y)%Z then strcmp a' b' else if (x <? y)%Z then (-1)%Z else 1%Z
  end.

(** Value of a byte read through a (signed, as on x86) [char]. *)
Definition schar (b : Z) : Z := if (b <? 128)%Z then b else (b - 256)%Z.

Definition u64 (z : Z) : Z := (z mod 2 ^ 64)%Z.
Definition u8 (z : Z) : Z := (z mod 256)%Z.

Definition NUL : Z := 0%Z.
Definition SEP : Z := 47%Z.      (* '/'  *)
Definition SPACE : Z := 32%Z.
Definition LF : Z := 10%Z.
Definition CR : Z := 13%Z.
Definition DOLLAR : Z := 36%Z.
Definition STAR : Z := 42%Z.
Definition PLUS : Z := 43%Z.
Definition MINUS : Z := 45%Z.
Definition DOT : Z := 46%Z.

(** Uninitialised cell of freshly allocated memory: not a byte, so it can
    never be mistaken for data in an equation between byte strings. *)
Definition JUNK : Z := (-1)%Z.
Definition malloc (n : nat) : list Z := repeat JUNK n.
(** [realloc] to [n] cells: keeps the common prefix, new cells are junk. *)
Definition realloc (old : list Z) (n : nat) : list Z :=
  firstn n old ++ repeat JUNK (n - length old).

(** [memcpy(&dst[doff], &src[soff], n)], bounds checked on both sides. *)
Definition memcpy {A} (dst : list A) (doff : nat) (src : list A) (soff n : nat) : res (list A) :=
  if (doff + n <=? length dst) && (soff + n <=? length src)
  then OK (firstn doff dst ++ firstn n (skipn soff src) ++ skipn (doff + n) dst)
  else UB.

(** The C string stored at the start of a buffer. *)
Fixpoint cstring_at (buf : list Z) : res cstr :=
  match buf with
  | [] => UB
  | c :: t => if (c =? 0)%Z then OK [] else do r <- cstring_at t; OK (c :: r)
  end.

(** [while (p(s[i])) i++;] *)
Fixpoint scan (fuel : nat) (s : cstr) (p : Z -> bool) (i : nat) : res nat :=
  match fuel with
  | O => OOF
  | S f => do c <- cget s i; if p c then scan f s p (i + 1) else OK i
  end.

(** [while (p(s[i])) { if (i == 0) break; i--; }] *)
Fixpoint scan_back (s : cstr) (p : Z -> bool) (i : nat) : res nat :=
  do c <- cget s i;
  if p c then match i with O => OK O | S i' => scan_back s p i' end else OK i.
