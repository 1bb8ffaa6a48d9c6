(** * Model of src/binary_search.c

    The file is generated from one template (gen/): all searches have the same
    control flow and only differ in the comparison [value vs. arr[i]].  The
    model therefore is one function over an oracle [cmp i] that reads [arr[i]]
    (and is [UB] outside the array) and returns the sign of the comparison. *)
From Verif Require Import CBase.
Open Scope nat_scope.

(** binary_search.c:36-75, 129-166, 268-305.  [None] models the C result
    [~0].  [end_index] is inclusive.  Fuel only bounds the recursion depth. *)
Fixpoint bsearch_fuel (fuel : nat) (cmp : nat -> res Z) (start_index end_index : nat)
  : res (option nat) :=
  match fuel with
  | O => OOF
  | S fuel' =>
    if start_index =? end_index then
      do c <- cmp start_index;
      if (c =? 0)%Z then OK (Some start_index) else OK None
    else
      let half_index := start_index + (end_index - start_index) / 2 in
      do cmp_val <- cmp half_index;
      if (cmp_val <? 0)%Z then bsearch_fuel fuel' cmp start_index half_index
      else if (0 <? cmp_val)%Z then
        if half_index =? end_index - 1 then bsearch_fuel fuel' cmp end_index end_index
        else bsearch_fuel fuel' cmp half_index end_index
      else OK (Some half_index)
  end.

(** binary_search.c:77-127, 168-216, 218-266.  Result: (index, found). *)
Fixpoint bsearch_insert_fuel (fuel : nat) (cmp : nat -> res Z) (start_index end_index : nat)
  : res (nat * bool) :=
  match fuel with
  | O => OOF
  | S fuel' =>
    if start_index =? end_index then
      do cmp_value <- cmp start_index;
      if (cmp_value =? 0)%Z then OK (start_index, true)
      else if (0 <? cmp_value)%Z then OK (start_index + 1, false)
      else OK (start_index, false)
    else
      let half_index := start_index + (end_index - start_index) / 2 in
      do cmp_val <- cmp half_index;
      if (cmp_val <? 0)%Z then bsearch_insert_fuel fuel' cmp start_index half_index
      else if (0 <? cmp_val)%Z then
        if half_index =? end_index - 1 then bsearch_insert_fuel fuel' cmp end_index end_index
        else bsearch_insert_fuel fuel' cmp half_index end_index
      else OK (half_index, true)
  end.

(** The interval shrinks with every call, so its length is enough fuel. *)
Definition bsearch cmp start_index end_index :=
  bsearch_fuel (S (end_index - start_index)) cmp start_index end_index.
Definition bsearch_insert cmp start_index end_index :=
  bsearch_insert_fuel (S (end_index - start_index)) cmp start_index end_index.

(** binary_search.c:32-34 [d3_word_cmp]: both arguments are unsigned words. *)
Definition d3_word_cmp (a b : Z) : Z :=
  if (a >? b)%Z then 1%Z else if (a <? b)%Z then (-1)%Z else 0%Z.

(** binary_search.c:129-166 [d3_word_binary_search] *)
Definition d3_word_binary_search (arr : list Z) (start_index end_index : nat) (value : Z) :=
  bsearch (fun i => do x <- aget arr i; OK (d3_word_cmp value x)) start_index end_index.

(** binary_search.c:168-216 [d3_word_binary_search_insert] *)
Definition d3_word_binary_search_insert (arr : list Z) (start_index end_index : nat) (value : Z) :=
  bsearch_insert (fun i => do x <- aget arr i; OK (d3_word_cmp value x)) start_index end_index.

(** binary_search.c:268-305 [key_file_binary_search]; the keyword array is
    represented by the list of its names. *)
Definition key_file_binary_search (names : list cstr) (start_index end_index : nat) (name : cstr) :=
  bsearch (fun i => do x <- aget names i; OK (strcmp name x)) start_index end_index.

(** binary_search.c:218-266 [key_file_binary_search_insert] *)
Definition key_file_binary_search_insert (names : list cstr) (start_index end_index : nat)
  (name : cstr) :=
  bsearch_insert (fun i => do x <- aget names i; OK (strcmp name x)) start_index end_index.

(** binary_search.c:77-127 [binout_directory_binary_search_entry_insert];
    the entry array is represented by the list of its names. *)
Definition entry_binary_search_insert (names : list cstr) (start_index end_index : nat)
  (name : cstr) :=
  bsearch_insert (fun i => do x <- aget names i; OK (strcmp name x)) start_index end_index.

(** d3plot.c:3073-3083 [d3plot_index_for_id]: [num_ids - 1] underflows for an
    empty id array, the search then starts in the middle of the address space. *)
Definition d3plot_index_for_id (id : Z) (ids : list Z) : res (option nat) :=
  match ids with
  | [] => UB
  | _ => d3_word_binary_search ids 0 (length ids - 1) id
  end.
