(** * What the records of binout files say about folders, variables and time steps *)
From Coq Require Import Sorting.Sorted.
From Verif Require Import CBase SearchSpec PathModel PathSpec BinDirSpec BinModel BinSpec TimedSpec.

(** Files the library can use, at least one and at most 256, followed by files
    it rejects; [fuel] only has to exceed the size of every file. *)
Definition usable (fuel : nat) (files : list bfile) (bad : list (cstr * disk)) : Prop :=
  files <> [] /\ length files <= 256 /\ Forall file_ok files /\ no_clash files /\
  Forall (fun f => length (encode (fst (snd f)) (snd (snd f))) < fuel) files /\ Forall (fun x => rejected (snd x)) bad.

(** A folder: the root, a folder a CD record leads to, or one on the way to it. *)
Definition has_folder (files : list bfile) (p : list (list Z)) : Prop :=
  p = [] \/ exists v, In v (all_visited files) /\ prefix p v.
(** A variable: some DATA record was written for the path. *)
Definition has_variable (files : list bfile) (p : list (list Z)) : Prop := exists v, In (p, v) (all_stored files).
Definition has_entry (files : list bfile) (p : list (list Z)) : Prop := has_folder files p \/ has_variable files p.
(** Type and bytes of the last DATA record of a path. *)
Definition holds (files : list bfile) (p : list (list Z)) (t : Z) (bytes : list Z) : Prop :=
  last_stored (all_stored files) p (Some (t, bytes)).

(** The entries of a folder in listing order. *)
Definition entries (files : list bfile) (p : list (list Z)) (l : list (list Z)) : Prop :=
  names_strict l /\ forall n, In n l <-> has_entry files (p ++ [n]).
(** Its time steps in listing order. *)
Definition time_steps (files : list bfile) (p : list (list Z)) (l : list (list Z)) : Prop :=
  names_strict l /\ forall d, In d l <-> d_name d /\ has_entry files (p ++ [d]).
(** All entries that begin with 'd' are time steps. *)
Definition only_steps (files : list bfile) (p : list (list Z)) : Prop :=
  forall t, has_entry files (p ++ [100%Z :: t]) -> d_name (100%Z :: t).
(** The steps [d] and [d'] have the same entries on the way to [rel]. *)
Definition alike (files : list bfile) (p rel : list (list Z)) (d d' : list Z) : Prop :=
  forall q n, prefix q (removelast rel) -> has_entry files (p ++ d :: q ++ [n]) <-> has_entry files (p ++ d' :: q ++ [n]).
(** No variable is named like a time step or "metadata". *)
Definition plain_names (files : list bfile) : Prop :=
  forall p n v, In (p ++ [n], v) (all_stored files) -> ~ d_name n /\ n <> bs "metadata".
(** A folder above the path has no entry. *)
Definition under_empty (files : list bfile) (p : list (list Z)) : Prop :=
  exists a b, p = a ++ b /\ b <> [] /\ has_folder files a /\ forall n, ~ has_entry files (a ++ [n]).
