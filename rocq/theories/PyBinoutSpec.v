(** * What a Python user expects of Binout *)
From Coq Require Import Sorting.Sorted.
From Verif Require Import CBase SearchSpec PathModel PathSpec BinDirSpec TimedSpec.

(** The entries of a folder, by name. *)
Definition names_of (ops : list op) (p : list (list Z)) (l : list (list Z)) : Prop :=
  names_strict l /\ forall n, In n l <-> exists_path ops (p ++ [n]).

(** The path of a folder, or of the root. *)
Definition folder (ops : list op) (p : list (list Z)) : Prop := p = [] \/ is_folder_path ops p.

(** A list of texts in ascending order. *)
Definition ascending (l : list (list Z)) : Prop := StronglySorted bytes_le l.
