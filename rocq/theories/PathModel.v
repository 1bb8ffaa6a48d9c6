(** * Model of src/path.c (POSIX branch) and src/path_view.c *)
From Verif Require Import CBase.

Definition is_sep (c : Z) : bool := (c =? SEP)%Z.
Definition not_sep (c : Z) : bool := negb (c =? SEP)%Z.
(** neither a separator nor the end of the string *)
Definition in_elem (c : Z) : bool := negb (c =? SEP)%Z && negb (c =? NUL)%Z.

(** path_view.h:60-64.  The C fields [start]/[end] are [int]; overflow of
    [int] for paths beyond 2^31 characters is not modelled. *)
Record path_view := { pv_string : cstr; pv_start : nat; pv_end : nat }.

(** path_view.h:31 PATH_VIEW_LEN *)
Definition pv_len (pv : path_view) : nat := pv_end pv - pv_start pv + 1.

(** path_view.c:34-61 [path_view_new]; the assert on an empty string is [UB]. *)
Definition path_view_new (s : cstr) : res path_view :=
  match s with
  | [] => UB
  | _ =>
    do c0 <- cget s 0;
    if negb (is_sep c0) then
      (* while (string[end + 1] is inside the element) end++ *)
      do e1 <- scan (S (length s)) s in_elem 1;
      OK {| pv_string := s; pv_start := 0; pv_end := e1 - 1 |}
    else
      do c1 <- cget s 1;
      if is_sep c1 then
        do st <- scan (S (length s)) s is_sep 2;
        OK {| pv_string := s; pv_start := st - 1; pv_end := st - 1 |}
      else OK {| pv_string := s; pv_start := 0; pv_end := 0 |}
  end.

(** path_view.c:63-87 [path_view_advance]; returns the view and whether it advanced. *)
Definition path_view_advance (pv : path_view) : res (path_view * bool) :=
  let s := pv_string pv in
  do i <- scan (S (length s)) s is_sep (pv_end pv + 1);
  do c <- cget s i;
  if (c =? NUL)%Z then OK (pv, false)
  else
    do e1 <- scan (S (length s)) s in_elem (i + 1);
    OK ({| pv_string := s; pv_start := i; pv_end := e1 - 1 |}, true).

(** path_view.c:95-104, the comparison loop of [path_view_strcmp]:
    [inl c] is an early return, [inr i] the index at which the loop ended.
    [char] is signed on the supported platforms. *)
Fixpoint pv_strcmp_loop (n : nat) (pv : path_view) (str : cstr) (i : nat) : res (Z + nat) :=
  match n with
  | O => OK (inr i)
  | S n' =>
    do y <- cget str i;
    if (y =? NUL)%Z then OK (inr i)
    else
      do x <- cget (pv_string pv) (pv_start pv + i);
      let d := (schar x - schar y)%Z in
      if (d =? 0)%Z then pv_strcmp_loop n' pv str (i + 1) else OK (inl d)
  end.

(** path_view.c:89-117 [path_view_strcmp] *)
Definition path_view_strcmp (pv : path_view) (str : cstr) : res Z :=
  do r <- pv_strcmp_loop (pv_len pv) pv str 0;
  match r with
  | inl d => OK d
  | inr i =>
    do y <- cget str i;
    OK ((if (y =? NUL)%Z then 1 else 0) * 2 - 1 - (if (i =? pv_len pv)%nat then 1 else 0))%Z
  end.

(** path_view.c:119-127 [path_view_stralloc]: clone of the viewed characters. *)
Definition path_view_stralloc (pv : path_view) : res cstr :=
  let n := pv_len pv in
  do b <- memcpy (malloc (n + 1)) 0 (pv_string pv ++ [NUL]) (pv_start pv) n;
  do b' <- aset b n NUL;
  cstring_at b'.

(** path.h:41 PATH_IS_ABS, path.c:329-343 [path_is_abs] (POSIX) *)
Definition path_is_abs (s : cstr) : res bool := do c <- cget s 0; OK (is_sep c).

(** path.c:41-48: last position of a separator in the string. *)
Fixpoint last_sep (s : cstr) (i : nat) (acc : option nat) : option nat :=
  match s with
  | [] => acc
  | c :: t => last_sep t (i + 1) (if is_sep c then Some i else acc)
  end.

(** path.c:37-95 [path_move_up] and path.c:97-155 [path_move_up_real]
    (identical on POSIX).  [None] models [~0]. *)
Definition path_move_up (path : cstr) : res (option nat) :=
  match last_sep path 0 None with
  | None => OK None
  | Some l0 =>
    do c1 <- cget path (l0 + 1);
    do step1 <-
      (if (c1 =? NUL)%Z then
         do l1 <- scan_back path is_sep l0;
         if l1 =? 0 then OK None
         else do l2 <- scan_back path not_sep l1; OK (Some l2)
       else OK (Some l0));
    match step1 with
    | None => OK None
    | Some l =>
      do l3 <- scan_back path is_sep l;
      OK (Some (if l3 =? 0 then 0 else l3 + 1))
    end
  end.

(** path.c:172-177: [while (rhs[j] == SEP) { if (j == rhs_len - 1) break; j++; }] *)
Fixpoint join_skip (fuel : nat) (rhs : cstr) (j : nat) : res nat :=
  match fuel with
  | O => OOF
  | S f =>
    do c <- cget rhs j;
    if is_sep c then
      if j =? length rhs - 1 then OK j else join_skip f rhs (j + 1)
    else OK j
  end.

(** path.c:157-190 [path_join] and 192-225 [path_join_real] (identical on
    POSIX).  An empty [lhs] makes [lhs_len - 1] wrap to SIZE_MAX and the
    following read is out of bounds. *)
Definition path_join (lhs rhs : cstr) : res cstr :=
  match lhs with
  | [] => UB
  | _ =>
    do i <- scan_back lhs is_sep (length lhs - 1);
    do j <- join_skip (S (length rhs)) rhs 0;
    let str_len := (i + 1) + (length rhs - j) + 1 in
    do b1 <- memcpy (malloc (str_len + 1)) 0 (lhs ++ [NUL]) 0 (i + 1);
    do b2 <- memcpy b1 (i + 2) (rhs ++ [NUL]) j (length rhs - j);
    do b3 <- aset b2 (i + 1) SEP;
    do b4 <- aset b3 str_len NUL;
    cstring_at b4
  end.

(** binary_search.c:36-75 [binout_directory_binary_search_entry]: the lookup
    compares the current path element with [path_view_strcmp] (while insertion
    uses [strcmp], see [entry_binary_search_insert]). *)
From Verif Require Import SearchModel.
Definition entry_binary_search (names : list cstr) (start_index end_index : nat) (pv : path_view) :=
  bsearch (fun i => do x <- aget names i; path_view_strcmp pv x) start_index end_index.
