(** * Model of src/binout_glob.c: the Windows branch *)
From Verif Require Import CBase.

(** Memory from malloc/realloc: bytes that have been written, and others. *)
Definition block := list (option Z).
(** memcpy inside of one block from [from] to [to]; the C standard leaves
    overlapping regions undefined. *)
Definition copy_within (b : block) (to from n : nat) : res block :=
  if (length b <? to + n) || (length b <? from + n) then UB
  else if (0 <? n) && (to <? from + n) && (from <? to + n) then UB
  else OK (firstn to b ++ firstn n (skipn from b) ++ skipn (to + n) b).
(** memcpy of [n] characters of a string (with its NUL) to the start of a block. *)
Definition copy_front (b : block) (s : cstr) (n : nat) : res block :=
  if (length b <? n) || (length s + 1 <? n) then UB else OK (map Some (firstn n (s ++ [NUL])) ++ skipn n b).
(** Assignment of one byte. *)
Definition put (b : block) (i : nat) (c : Z) : res block := if i <? length b then OK (firstn i b ++ [Some c] ++ skipn (S i) b) else UB.
(** The string a block holds: up to the first NUL. *)
Fixpoint held (b : block) : res cstr :=
  match b with
  | Some c :: r => if (c =? NUL)%Z then OK [] else do s <- held r; OK (c :: s)
  | _ => UB
  end.

(** binout_glob.c:60-71: from the character before the last backwards, until a
    separator; the index is a size_t, which underflows for the empty pattern. *)
Definition win_sep (c : Z) : bool := (c =? 92)%Z || (c =? 47)%Z.
Fixpoint sep_backwards (pattern : cstr) (i : nat) : option nat :=
  if win_sep (nth i pattern NUL) then Some (i + 1) else match i with O => None | S i => sep_backwards pattern i end.
Definition parent_length (pattern : cstr) : res (option nat) :=
  match length pattern with
  | O => UB                                  (** pattern[SIZE_MAX - 1] *)
  | S O => OK None                           (** i = SIZE_MAX *)
  | S (S n) => OK (sep_backwards pattern n)
  end.
(** binout_glob.c:80-87: one result. *)
Definition prepend (pattern : cstr) (parent_len : nat) (name : cstr) : res block :=
  let n := length name in
  let b := map Some name ++ [Some NUL] ++ repeat None (parent_len + n + 1 - (n + 1)) in      (* realloc *)
  do b <- copy_within b parent_len 0 n;
  do b <- copy_front b pattern parent_len;
  put b (parent_len + n) NUL.
Fixpoint prepend_all (pattern : cstr) (parent_len : nat) (names : list cstr) : res (list block) :=
  match names with [] => OK [] | x :: r => do b <- prepend pattern parent_len x; do l <- prepend_all pattern parent_len r; OK (b :: l) end.
(** binout_glob.c:34-93; [names]: what _findfirst and _findnext report. *)
Definition binout_glob (pattern : cstr) (names : list cstr) : res (list block) :=
  do p <- parent_length pattern;
  match p with
  | None => OK (map (fun x => map Some (x ++ [NUL])) names)
  | Some n => prepend_all pattern n names
  end.
