(** * Vocabulary for sorted tables (independent of the model) *)
From Coq Require Import Sorting.Sorted.
From Verif Require Import CBase.

(** Strict byte-wise lexicographic order: either [a] is a proper prefix of
    [b], or at the first difference the byte of [a] is smaller. *)
Definition bytes_lt (a b : list Z) : Prop :=
  (exists y t, b = a ++ y :: t) \/
  (exists p x s y t, a = p ++ x :: s /\ b = p ++ y :: t /\ (x < y)%Z).

Definition bytes_le (a b : list Z) : Prop := a = b \/ bytes_lt a b.

(** Tables. *)
Definition words_sorted (l : list Z) : Prop := StronglySorted Z.le l.
Definition words_strict (l : list Z) : Prop := StronglySorted Z.lt l.
Definition names_sorted (l : list (list Z)) : Prop := StronglySorted bytes_le l.
Definition names_strict (l : list (list Z)) : Prop := StronglySorted bytes_lt l.
