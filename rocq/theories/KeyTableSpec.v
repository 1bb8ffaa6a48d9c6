(** * Vocabulary for the keyword table *)
From Verif Require Import CBase SearchSpec KeyTableModel.

(** A keyword as it stands in the file, and the callbacks it produces. *)
Definition block := (cstr * list cstr)%type.

Fixpoint card_events (name : cstr) (i : nat) (cards : list cstr) : list event :=
  match cards with
  | [] => []
  | c :: t => (name, Some c, Some i) :: card_events name (S i) t
  end.

Definition block_events (b : block) : list event :=
  match snd b with
  | [] => [(fst b, None, None)]
  | _ => card_events (fst b) 0 (snd b)
  end.

Definition file_events (bs : list block) : list event := concat (map block_events bs).

Definition as_block (k : keyword) : block := (kw_name k, kw_cards k).

Definition named (n : cstr) (b : block) : bool := if list_eq_dec Z.eq_dec (fst b) n then true else false.

(** [out] is the stable sort of [bs] by name: it is sorted, and for every name
    the keywords with that name are the same, with the same cards, in the same
    order. *)
Definition stable_sorted (bs out : list block) : Prop :=
  names_sorted (map fst out) /\ forall n, filter (named n) out = filter (named n) bs.

(** Every keyword that occurs a third or later time is preceded in the file by
    a keyword with a greater name. *)
Definition tame (bs : list block) : Prop :=
  forall pre b post, bs = pre ++ b :: post ->
    2 <= length (filter (named (fst b)) pre) ->
    exists g, In g pre /\ bytes_lt (fst b) (fst g).

Definition occurrences (n : cstr) (names : list cstr) : nat :=
  length (filter (fun x => if list_eq_dec Z.eq_dec x n then true else false) names).
