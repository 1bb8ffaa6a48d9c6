(** * Model of src/string_builder.c and src/extra_string.c *)
From Verif Require Import CBase.

(** ** String builder *)

(** string_builder.h: [buffer] (NULL = [None], otherwise all [cap] allocated
    cells), [cap], [ptr]. *)
Record string_builder := { sb_buffer : option (list Z); sb_cap : nat; sb_ptr : nat }.

(** string_builder.c:31-38 [string_builder_new] *)
Definition string_builder_new : string_builder :=
  {| sb_buffer := None; sb_cap := 0; sb_ptr := 0 |}.

Definition sb_cells (b : string_builder) : list Z :=
  match sb_buffer b with Some m => m | None => [] end.

(** string_builder.c:40-54 [string_builder_append] *)
Definition string_builder_append (b : string_builder) (s : cstr) : res string_builder :=
  let s_len := length s in
  let cap := sb_cap b + s_len in
  let cap := if sb_ptr b =? 0 then cap + 1 else cap in
  let buf := realloc (sb_cells b) cap in
  do buf <- memcpy buf (sb_ptr b) (s ++ [NUL]) 0 (s_len + 1);
  OK {| sb_buffer := Some buf; sb_cap := cap; sb_ptr := sb_ptr b + s_len |}.

(** string_builder.c:56-69 [string_builder_append_char] *)
Definition string_builder_append_char (b : string_builder) (c : Z) : res string_builder :=
  let cap := sb_cap b + 1 in
  let cap := if sb_ptr b =? 0 then cap + 1 else cap in
  let buf := realloc (sb_cells b) cap in
  do buf <- aset buf (sb_ptr b) c;
  do buf <- aset buf (sb_ptr b + 1) NUL;
  OK {| sb_buffer := Some buf; sb_cap := cap; sb_ptr := sb_ptr b + 1 |}.

(** string_builder.c:71-85 [string_builder_append_len]; [mem] is the readable
    memory starting at the pointer [s]. *)
Definition string_builder_append_len (b : string_builder) (mem : list Z) (l : nat)
  : res string_builder :=
  let cap := sb_cap b + (l + 1) in
  let cap := if sb_ptr b =? 0 then cap + 1 else cap in
  let buf := realloc (sb_cells b) cap in
  do buf <- memcpy buf (sb_ptr b) mem 0 l;
  do buf <- aset buf (sb_ptr b + l) NUL;
  OK {| sb_buffer := Some buf; sb_cap := cap; sb_ptr := sb_ptr b + l |}.

(** string_builder.c:87-97 [string_builder_move]; also 99-108
    [string_builder_free] (which discards the buffer). *)
Definition string_builder_move (b : string_builder) : option (list Z) * string_builder :=
  (sb_buffer b, string_builder_new).

(** string_builder.c:110-119 [string_clone] *)
Definition string_clone (s : cstr) : res cstr :=
  do b <- memcpy (malloc (length s + 1)) 0 (s ++ [NUL]) 0 (length s + 1);
  cstring_at b.

(** string_builder.c:121-130 [string_clone_len]; result: the [len+1] cells. *)
Definition string_clone_len (mem : list Z) (len : nat) : res (list Z) :=
  do b <- memcpy (malloc (len + 1)) 0 mem 0 len;
  aset b len NUL.

(** ** Extra string *)

(** extra_string.h: EXTRA_STRING_BUFFER_SIZE *)
Definition ESB : nat := 82.

(** extra_string.h: [buffer] has 82 cells, [extra] is a heap block
    (NULL = []). *)
Record extra_string := { es_buffer : list Z; es_extra : list Z }.

(** extra_string.c:30-35 [extra_string_get] *)
Definition extra_string_get (s : extra_string) (index : nat) : res Z :=
  if index <? ESB then aget (es_buffer s) index else aget (es_extra s) (index - ESB).

(** extra_string.c:37-43 [extra_string_set] *)
Definition extra_string_set (s : extra_string) (index : nat) (v : Z) : res extra_string :=
  if index <? ESB then
    do b <- aset (es_buffer s) index v; OK {| es_buffer := b; es_extra := es_extra s |}
  else
    do e <- aset (es_extra s) (index - ESB) v; OK {| es_buffer := es_buffer s; es_extra := e |}.

(** A [memcpy] whose size is the unsigned difference [a - b]: if it
    underflows, the size is close to 2^64 and the copy leaves every buffer. *)
Definition memcpy_diff (dst : list Z) (doff : nat) (src : list Z) (soff a b : nat) : res (list Z) :=
  if a <? b then UB else memcpy dst doff src soff (a - b).

(** extra_string.c:45-62 [extra_string_copy] *)
Definition extra_string_copy (dst src : extra_string) (src_len offset : nat) : res extra_string :=
  do b <- memcpy_diff (es_buffer dst) 0 (es_buffer src) offset ESB offset;
  if ESB <=? src_len then
    let e := realloc (es_extra dst) (src_len - ESB + 1) in
    if negb (offset =? 0) then
      do b <- memcpy b (ESB - offset) (es_extra src) 0 offset;
      do e <- memcpy_diff e 0 (es_extra src) offset (src_len - ESB + 1) offset;
      OK {| es_buffer := b; es_extra := e |}
    else
      do e <- memcpy e 0 (es_extra src) 0 (src_len - ESB + 1);
      OK {| es_buffer := b; es_extra := e |}
  else OK {| es_buffer := b; es_extra := es_extra dst |}.

(** extra_string.c:64-73 [extra_string_copy_to_string] *)
Definition extra_string_copy_to_string (dst : list Z) (src : extra_string) (dst_len : nat)
  : res (list Z) :=
  if dst_len <? ESB then memcpy dst 0 (es_buffer src) 0 dst_len
  else
    do d <- memcpy dst 0 (es_buffer src) 0 ESB;
    memcpy d ESB (es_extra src) 0 (dst_len - ESB + 1).

(** extra_string.c:77-84 / 111-118: the loops over the fixed buffer.
    [inl] = early return of the difference, [inr i] = index at loop end. *)
Fixpoint es_cmp_loop (n : nat) (lhs : extra_string) (rhs : cstr) (i : nat) : res (Z + nat) :=
  match n with
  | O => OK (inr i)
  | S n' =>
    do x <- aget (es_buffer lhs) i;
    if (x =? NUL)%Z then OK (inr i)
    else
      do y <- cget rhs i;
      if (y =? NUL)%Z then OK (inr i)
      else if (x =? y)%Z then es_cmp_loop n' lhs rhs (i + 1)
      else OK (inl (schar x - schar y)%Z)
  end.

(** extra_string.c:75-107 [extra_string_compare].  Note the index [i] = 82
    used on [extra], which starts at 0.  The final [strcmp] compares the C
    string in [extra] with the rest of [rhs]. *)
Definition extra_string_compare (lhs : extra_string) (rhs : cstr) : res Z :=
  do r <- es_cmp_loop ESB lhs rhs 0;
  match r with
  | inl d => OK d
  | inr i =>
    if i =? ESB then
      do x <- aget (es_extra lhs) i;
      do y <- cget rhs i;
      if (x =? NUL)%Z && (y =? NUL)%Z then OK 0%Z
      else if (x =? NUL)%Z then OK (-1)%Z
      else do e <- cstring_at (es_extra lhs); OK (strcmp e (skipn i rhs))
    else
      do x <- aget (es_buffer lhs) i;
      do y <- cget rhs i;
      if (x =? NUL)%Z && (y =? NUL)%Z then OK 0%Z
      else if (x =? NUL)%Z then OK (-1)%Z
      else OK 1%Z
  end.

(** extra_string.c:136-143: comparing the overflow part. [inl] = early
    return 0, [inr (j,i)] = indices at loop end. *)
Fixpoint es_pre_loop (fuel : nat) (s : extra_string) (prefix : cstr) (j i : nat)
  : res (unit + nat * nat) :=
  match fuel with
  | O => OOF
  | S f =>
    do x <- aget (es_extra s) j;
    if (x =? NUL)%Z then OK (inr (j, i))
    else
      do y <- cget prefix i;
      if (y =? NUL)%Z then OK (inr (j, i))
      else if (x =? y)%Z then es_pre_loop f s prefix (j + 1) (i + 1)
      else OK (inl tt)
  end.

(** extra_string.c:109-152 [extra_string_starts_with]; both exits behind the
    last loop return 1. *)
Definition extra_string_starts_with (s : extra_string) (prefix : cstr) : res bool :=
  do r <- es_cmp_loop ESB s prefix 0;
  match r with
  | inl _ => OK false
  | inr i =>
    let continue_in_extra :=
      do q <- es_pre_loop (S (length prefix)) s prefix 0 i;
      match q with
      | inl _ => OK false
      | inr _ => OK true
      end in
    if i =? ESB then
      do y <- cget prefix i;
      if (y =? NUL)%Z then OK true else continue_in_extra
    else
      do x <- aget (es_buffer s) i;
      if (x =? NUL)%Z then
        do y <- cget prefix i; OK (y =? NUL)%Z
      else OK true
  end.
