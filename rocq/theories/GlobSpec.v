(** * What binout_glob must return *)
From Verif Require Import CBase.

Definition separator (c : Z) : Prop := c = 92%Z \/ c = 47%Z.       (* \ and / *)
(** A name without separators. *)
Definition plain (s : cstr) : Prop := Forall (fun c => ~ separator c) s.
(** The folder in a pattern: up to the last separator; the last character of
    the pattern does not count. *)
Definition folder_of (pattern folder : cstr) : Prop :=
  (exists d rest c, pattern = folder ++ rest ++ [c] /\ (folder = [] \/ exists s, folder = d ++ [s] /\ separator s) /\ plain rest).
