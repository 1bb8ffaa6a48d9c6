(** * What the single precision readers must return *)
From Verif Require Import CBase BinModel D3BufModel D3BufSpec D3Model D3Spec D3ReadModel D3ReadSpec.
Open Scope Z_scope.

(** Signs and special values of the bit patterns. *)
Definition double_negative (w : Z) : bool := 2 ^ 63 <=? w.
Definition float_negative (f : Z) : bool := 2 ^ 31 <=? f.
Definition double_infinite (w : Z) : Prop := w mod 2 ^ 63 = 2047 * 2 ^ 52.
Definition float_infinite (f : Z) : Prop := f mod 2 ^ 31 = 255 * 2 ^ 23.
Definition double_nan (w : Z) : Prop := double_value w = None /\ ~ double_infinite w.
Definition float_nan (f : Z) : Prop := float_value f = None /\ ~ float_infinite f.

(** No float is nearer to the number [v] than [f] (whose number is [u]), and if
    another is as near the last bit of [f] is 0.  Numbers in units of 2^-1074. *)
Definition nearest (v : Z) (f u : Z) : Prop :=
  float_value f = Some u /\
  (forall g ug, 0 <= g < 2 ^ 32 -> float_value g = Some ug -> Z.abs (u - v) <= Z.abs (ug - v)) /\
  (forall g ug, 0 <= g < 2 ^ 32 -> float_value g = Some ug -> ug <> u -> Z.abs (ug - v) = Z.abs (u - v) -> Z.even f = true).
(** Half a unit in the last place above the largest float: (2^25 - 1) * 2^103. *)
Definition too_large : Z := (2 ^ 25 - 1) * 2 ^ (103 + 1074).
(** The float [f] is the double [w] rounded to the nearest float. *)
Definition rounded (w f : Z) : Prop :=
  0 <= f < 2 ^ 32 /\ float_negative f = double_negative w /\
  (forall v, double_value w = Some v -> Z.abs v < too_large -> exists u, nearest v f u) /\
  (forall v, double_value w = Some v -> too_large <= Z.abs v -> float_infinite f) /\
  (double_infinite w -> float_infinite f) /\ (double_nan w -> float_nan f).
(** The float a word of a d3plot gives: the same bits, or the double rounded. *)
Definition single (b : dbuf) (w f : Z) : Prop := if d_ws b =? 4 then f = w else rounded w f.
