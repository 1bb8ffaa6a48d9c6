(** * What Python's arrays and strings promise *)
From Verif Require Import CBase PyArrayModel.

(** The order of texts: they agree up to a place where both have a character
    and the left one is smaller; bytes behind a NUL do not count. *)
Definition before (a b : list Z) : Prop :=
  exists p x y a' b', a = p ++ x :: a' /\ b = p ++ y :: b' /\ ~ In NUL p /\ (x < y)%Z.
