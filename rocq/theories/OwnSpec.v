(** * Programs over values

    [vruns step v prog rs v']: the program shows [rs] and turns the values [v]
    into [v']. *)
From Verif Require Import CBase.

Inductive vruns {V O R : Type} (step : V -> O -> R -> V -> Prop) : V -> list O -> list R -> V -> Prop :=
| VR_done v : vruns step v [] [] v
| VR_step v o r v' t rs v'' : step v o r v' -> vruns step v' t rs v'' -> vruns step v (o :: t) (r :: rs) v''.

(** The operations of [step] for which [P] holds at the point where they are
    executed. *)
Definition such_that {V O R : Type} (step : V -> O -> R -> V -> Prop) (P : V -> O -> Prop) : V -> O -> R -> V -> Prop :=
  fun v o r v' => step v o r v' /\ P v o.
