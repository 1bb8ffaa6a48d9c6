(** * What the lines of a file are *)
From Verif Require Import CBase.

(** The pieces between line feeds (n line feeds: n+1 pieces). *)
Fixpoint pieces (t : list Z) : list (list Z) :=
  match t with
  | [] => [[]]
  | c :: t' =>
    if (c =? LF)%Z then [] :: pieces t'
    else match pieces t' with p :: ps => (c :: p) :: ps | [] => [[c]] end
  end.

(** A file whose last line is terminated by a line feed has no further, empty line. *)
Definition text_lines (t : list Z) : list (list Z) :=
  if list_eq_dec Z.eq_dec (last (pieces t) []) [] then removelast (pieces t) else pieces t.

(** Carriage returns are not part of the line. *)
Definition clean (l : list Z) : list Z := filter (fun c => negb (c =? CR)%Z) l.

(** Index of the first '$'. *)
Fixpoint first_dollar (l : list Z) : option nat :=
  match l with
  | [] => None
  | c :: t => if (c =? DOLLAR)%Z then Some 0 else option_map S (first_dollar t)
  end.

(** What the reader shows for a line: its bytes followed by NUL at the start
    of the line memory, its length and the comment position. *)
Definition shows (v : list Z * nat * option nat) (line : list Z) : Prop :=
  let '(mem, len, com) := v in
  len = length line /\ (exists rest, mem = line ++ 0%Z :: rest) /\ com = first_dollar line.
