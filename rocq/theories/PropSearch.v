(** * Property theorems: C01, C02 (sorted tables) *)
From Coq Require Import Sorting.Sorted.
From Verif Require Import CBase SearchModel SearchSpec SearchProofs.

(** C01, ids: terminates, stays in bounds (never [UB]/[OOF]), index exact. *)
Theorem C01_word_lookup_exact : forall (ids : list Z) (id : Z) (i : nat),
  ids <> [] -> words_strict ids ->
  (d3_word_binary_search ids 0 (length ids - 1) id = OK (Some i) <-> nth_error ids i = Some id) /\
  (d3_word_binary_search ids 0 (length ids - 1) id = OK None <-> ~ In id ids).
Proof. exact (fun ids id i => word_search_iff ids id i). Qed.
Print Assumptions C01_word_lookup_exact.

Example C01_word_lookup_exact_nonvacuous :
  words_strict [3; 7; 8; 20]%Z /\ d3_word_binary_search [3; 7; 8; 20]%Z 0 3 8%Z = OK (Some 2).
Proof. split; [repeat constructor|reflexivity]. Qed.

(** C01, keyword names. *)
Theorem C01_name_lookup_exact : forall (names : list cstr) (name : cstr) (i : nat),
  names <> [] -> names_strict names ->
  (key_file_binary_search names 0 (length names - 1) name = OK (Some i) <-> nth_error names i = Some name) /\
  (key_file_binary_search names 0 (length names - 1) name = OK None <-> ~ In name names).
Proof. exact (fun names name i => name_search_iff names name i). Qed.
Print Assumptions C01_name_lookup_exact.

(** C01, with duplicates (keyword arrays): still finds some occurrence iff one exists. *)
Theorem C01_name_lookup_duplicates : forall (names : list cstr) (name : cstr),
  names <> [] -> names_sorted names ->
  exists r, key_file_binary_search names 0 (length names - 1) name = OK r /\
    match r with
    | Some i => nth_error names i = Some name
    | None => ~ In name names
    end.
Proof. exact (fun names name => name_search_spec names name). Qed.
Print Assumptions C01_name_lookup_duplicates.

Example C01_name_nonvacuous :
  names_strict [bs "ELEMENT"; bs "NODE"; bs "NODE_X"]%string /\
  key_file_binary_search [bs "ELEMENT"; bs "NODE"; bs "NODE_X"] 0 2 (bs "NODE_X") = OK (Some 2).
Proof.
  split; [apply strictb_sound; reflexivity|reflexivity].
Qed.

(** C01, the public id lookup; an empty id array is undefined behaviour. *)
Theorem C01_index_for_id : forall (ids : list Z) (id : Z) (i : nat),
  ids <> [] -> words_strict ids ->
  (d3plot_index_for_id id ids = OK (Some i) <-> nth_error ids i = Some id) /\
  (d3plot_index_for_id id ids = OK None <-> ~ In id ids).
Proof.
  exact (fun ids id i Hne Hs =>
    match ids as l return l <> [] -> words_strict l ->
      (d3plot_index_for_id id l = OK (Some i) <-> nth_error l i = Some id) /\
      (d3plot_index_for_id id l = OK None <-> ~ In id l) with
    | [] => fun H => match H eq_refl with end
    | x :: t => fun H S => word_search_iff (x :: t) id i H S
    end Hne Hs).
Qed.
Print Assumptions C01_index_for_id.

Theorem C01_index_for_id_empty_refuted : exists (ids : list Z) (id : Z),
  words_strict ids /\ ~ In id ids /\ d3plot_index_for_id id ids = UB.
Proof. exact (ex_intro _ [] (ex_intro _ 5%Z (conj (SSorted_nil _) (conj (fun H => H) eq_refl)))). Qed.
Print Assumptions C01_index_for_id_empty_refuted.

(** C02, words: found iff present; otherwise inserting at the returned index keeps the order. *)
Theorem C02_word_insertion_point : forall (ids : list Z) (id : Z),
  ids <> [] -> words_strict ids ->
  exists p found, d3_word_binary_search_insert ids 0 (length ids - 1) id = OK (p, found) /\
    (found = true <-> In id ids) /\
    (found = true -> nth_error ids p = Some id) /\
    (found = false -> p <= length ids /\ words_strict (firstn p ids ++ id :: skipn p ids)).
Proof. exact (fun ids id => word_insert_strict ids id). Qed.
Print Assumptions C02_word_insertion_point.

Example C02_word_nonvacuous :
  d3_word_binary_search_insert [3; 7; 8; 20]%Z 0 3 9%Z = OK (3, false).
Proof. reflexivity. Qed.

(** C02, names, duplicate-free tables (binout folders). *)
Theorem C02_name_insertion_point : forall (names : list cstr) (name : cstr),
  names <> [] -> names_strict names ->
  exists p found, entry_binary_search_insert names 0 (length names - 1) name = OK (p, found) /\
    (found = true <-> In name names) /\
    (found = true -> nth_error names p = Some name) /\
    (found = false -> p <= length names /\ names_strict (firstn p names ++ name :: skipn p names)).
Proof. exact (fun names name => name_insert_strict names name). Qed.
Print Assumptions C02_name_insertion_point.

(** C02, names, tables with duplicates (keyword arrays). *)
Theorem C02_name_insertion_point_duplicates : forall (names : list cstr) (name : cstr),
  names <> [] -> names_sorted names ->
  exists p found, key_file_binary_search_insert names 0 (length names - 1) name = OK (p, found) /\
    (found = true -> nth_error names p = Some name) /\
    (found = false -> ~ In name names /\ p <= length names /\
       Forall (fun x => bytes_lt x name) (firstn p names) /\
       Forall (fun x => bytes_lt name x) (skipn p names)).
Proof. exact (fun names name => name_insert_spec names name). Qed.
Print Assumptions C02_name_insertion_point_duplicates.

Example C02_name_nonvacuous :
  names_sorted [bs "A"; bs "B"; bs "B"] /\
  key_file_binary_search_insert [bs "A"; bs "B"; bs "B"] 0 2 (bs "C") = OK (3, false).
Proof.
  split; [apply sortedb_sound; reflexivity|reflexivity].
Qed.
