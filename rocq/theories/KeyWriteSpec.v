(** * Writing a key file (a program that produces key files, independent of the parser) *)
From Coq Require Import DecimalString.
From Verif Require Import CBase KeyTableSpec.

(** What is written for a keyword: a line with '*' and the name, and one line
    per card. *)
Definition block_lines (b : block) : list (list Z) := (STAR :: fst b) :: snd b.

(** Remarks (lines that start with '$') may stand in front of every line. *)
Fixpoint weave (remarks : nat -> list (list Z)) (i : nat) (ls : list (list Z)) : list (list Z) :=
  match ls with
  | [] => []
  | l :: t => map (cons DOLLAR) (remarks i) ++ l :: weave remarks (i + 1) t
  end.

(** Every line is ended by [eol], the file by the keyword END. *)
Definition write (eol : list Z) (remarks : nat -> list (list Z)) (blocks : list block) : list Z :=
  concat (map (fun l => l ++ eol) (weave remarks 0 (concat (map block_lines blocks)))) ++ bs "*END".

(** line feed, or carriage return and line feed *)
Definition line_end (eol : list Z) : Prop := eol = [LF] \/ eol = [CR; LF].

(** Characters that can stand in a line. *)
Definition printing (c : Z) : Prop := (0 < c < 256)%Z /\ c <> LF /\ c <> CR.

(** A name: characters, no blank and no '$'; not END, not one of the INCLUDE
    keywords. *)
Definition writable_name (n : cstr) : Prop :=
  n <> [] /\ Forall (fun c => printing c /\ c <> SPACE /\ c <> DOLLAR) n /\
  n <> bs "END" /\ ~ exists t, n = bs "INCLUDE" ++ t.

(** A card: characters without '$'; behind its leading blanks stands no '*'. *)
Definition writable_card (c : cstr) : Prop :=
  Forall (fun c => printing c /\ c <> DOLLAR) c /\
  forall b t, c = b ++ STAR :: t -> ~ Forall (fun x => x = SPACE) b.

Definition writable (blocks : list block) : Prop :=
  blocks <> [] /\ Forall (fun b => writable_name (fst b) /\ Forall writable_card (snd b)) blocks.
Definition writable_remarks (remarks : nat -> list (list Z)) : Prop := forall i, Forall (Forall printing) (remarks i).

(** The [index]-th of the blocks with the name [name]. *)
Definition nth_named (blocks : list block) (name : cstr) (index : nat) : option block :=
  nth_error (filter (named name) blocks) index.

(** ** Numbers in columns *)

(** the decimal numeral of a number *)
Definition numeral (v : Z) : list Z := bs (NilZero.string_of_int (Z.to_int v)).
(** right aligned in a column of the width [w] *)
Definition column (w : nat) (v : Z) : list Z := repeat SPACE (w - length (numeral v)) ++ numeral v.
Definition row (w : nat) (vs : list Z) : cstr := concat (map (column w) vs).
