(** * Memory given back and memory lost *)
From Verif Require Import CBase CppArrayModel.

(** What was allocated since [h] has been freed, the rest is untouched. *)
Definition given_back (h h' : heap) : Prop :=
  (forall b, b < length h -> nth_error h' b = nth_error h b) /\
  (forall b c, length h <= b -> nth_error h' b <> Some (Some c)).
(** A block of [n] elements that was allocated since [h] is still allocated. *)
Definition lost (n : Z) (h h' : heap) : Prop := exists b c, length h <= b /\ nth_error h' b = Some (Some c) /\ Z.of_nat (length c) = n.
