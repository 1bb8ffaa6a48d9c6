(** * Model of /repo/src/d3_buffer.c (thread safe build): families of d3plot files

    The handles behind a pointer are modelled by their position only: C33
    (PropMulti.v) shows that no other user of the family can change it.  Not
    modelled: the NO_THREAD_SAFETY build (#ifdef parts), allocation failure,
    the effect of _d3_buffer_kill_idle_files (d3_buffer.c:725-755), which closes
    unused handles only. *)
From Verif Require Import CBase BinModel.

(** A file of the family: its bytes, the size recorded when the family was
    opened (d3_buffer.h:41), and whether fopen succeeds on it. *)
Record dfile : Type := { f_bytes : list Z; f_size : Z; f_ok : bool }.

(** Error messages (error_string), one constructor per message. *)
Inductive derr : Type :=
| E_no_files          (* d3_buffer.c:137 *)
| E_broken            (* d3_buffer.c:246 *)
| E_read              (* d3_buffer.c:296, 319, 335 *)
| E_too_much          (* d3_buffer.c:352 *)
| E_switch            (* d3_buffer.c:348 *)
| E_seek_failed       (* d3_buffer.c:367 *)
| E_bounds            (* d3_buffer.c:414 *)
| E_open_next         (* d3_buffer.c:471, 562 *)
| E_oob               (* d3_buffer.c:537 *)
| E_seek.             (* d3_buffer.c:505, 697 *)

(** d3_buffer.h:47-58 *)
Record dbuf : Type := { d_files : list dfile; d_ws : Z; d_err : option derr }.
(** d3_buffer.h:33-37.  [p_file = None] is ULONG_MAX (a closed pointer); [p_pos]
    is the position of the handle in its file. *)
Record dptr : Type := { p_file : option nat; p_word : Z; p_pos : Z }.

Definition ULONG_MAX : Z := (2 ^ 64 - 1)%Z.
Definition closed : dptr := {| p_file := None; p_word := ULONG_MAX; p_pos := 0 |}.
Definition set_err (b : dbuf) (e : derr) : dbuf := {| d_files := d_files b; d_ws := d_ws b; d_err := Some e |}.
Definition clear_err (b : dbuf) : dbuf := {| d_files := d_files b; d_ws := d_ws b; d_err := None |}.
Definition set_ws (b : dbuf) (w : Z) : dbuf := {| d_files := d_files b; d_ws := w; d_err := d_err b |}.

(** buffer->files[ptr->cur_file]: out of bounds for a closed pointer. *)
Definition cur_file (b : dbuf) (p : dptr) : res (nat * dfile) :=
  match p_file p with
  | None => UB
  | Some i => do f <- aget (d_files b) i; OK (i, f)
  end.

(** fread of [count] items of [size] bytes at [pos]: the bytes written to the
    destination and the number of complete items. *)
Definition fread_items (data : list Z) (pos size count : Z) : list Z * Z :=
  let d := firstn (Z.to_nat (size * count)) (skipn (Z.to_nat pos) data) in
  (d, Z.of_nat (length d) / size)%Z.

(** d3_buffer.c:707-723 *)
Definition pointer_close (b : dbuf) (p : dptr) : res dptr :=
  do ' (_, _) <- cur_file b p; OK closed.

(** d3_buffer.c:437-512.  [false]: there is no next file, or it cannot be opened. *)
Definition next_file (b : dbuf) (p : dptr) : res (dbuf * dptr * bool) :=
  do ' (i, f) <- cur_file b p;
  let cur_word := u64 (p_word p + u64 (f_size f - p_pos p) / d_ws b) in
  let j := i + 1 in
  do p <- pointer_close b p;
  if j =? length (d_files b) then OK (b, p, false)
  else
    do g <- aget (d_files b) j;
    if f_ok g then OK (b, {| p_file := Some j; p_word := cur_word; p_pos := 0 |}, true)
    else OK (set_err b E_open_next, closed, false).

(** d3_buffer.c:305-355: the loop over the files.  [acc] are the bytes written
    to [words] so far. *)
Fixpoint read_loop (fuel : nat) (b : dbuf) (p : dptr) (num_bytes : Z) (acc : list Z) : res (dbuf * dptr * list Z) :=
  match fuel with
  | O => OOF
  | S fuel =>
    let bytes_read := Z.of_nat (length acc) in
    if (bytes_read <? num_bytes)%Z then
      do ' (_, f) <- cur_file b p;
      let from_cur := u64 (f_size f - p_pos p) in
      let left := (num_bytes - bytes_read)%Z in
      if (left <=? from_cur)%Z then
        let '(d, c) := fread_items (f_bytes f) (p_pos p) 1 left in
        let p' := {| p_file := p_file p; p_word := p_word p; p_pos := (p_pos p + Z.of_nat (length d))%Z |} in
        if (c =? left)%Z
        then OK (b, {| p_file := p_file p; p_word := u64 (p_word p + left / d_ws b); p_pos := p_pos p' |}, acc ++ d)
        else OK (set_err b E_read, p', acc ++ d)
      else
        let '(d, c) := if (from_cur =? 0)%Z then ([], 0%Z) else fread_items (f_bytes f) (p_pos p) 1 from_cur in
        let p' := {| p_file := p_file p; p_word := p_word p; p_pos := (p_pos p + Z.of_nat (length d))%Z |} in
        if (c =? from_cur)%Z then
          let p' := {| p_file := p_file p; p_word := u64 (p_word p + from_cur / d_ws b); p_pos := p_pos p' |} in
          do ' (b', p'', ok) <- next_file b p';
          if ok then read_loop fuel b' p'' num_bytes (acc ++ d)
          else match d_err b' with
               | Some _ => OK (set_err b' E_switch, p'', acc ++ d)
               | None => OK (set_err b' E_too_much, p'', acc ++ d)
               end
        else OK (set_err b E_read, p', acc ++ d)
    else OK (b, p, acc)
  end.

(** d3_buffer.c:282-359.  Returns the bytes written to [words]. *)
Definition read_words (b : dbuf) (p : dptr) (num_words : Z) : res (dbuf * dptr * list Z) :=
  do ' (_, f) <- cur_file b p;
  if (u64 (num_words * d_ws b) <=? u64 (f_size f - p_pos p))%Z then
    let '(d, c) := fread_items (f_bytes f) (p_pos p) (d_ws b) num_words in
    let p' := {| p_file := p_file p; p_word := p_word p; p_pos := (p_pos p + Z.of_nat (length d))%Z |} in
    if (c =? num_words)%Z
    then OK (b, {| p_file := p_file p; p_word := u64 (p_word p + num_words); p_pos := p_pos p' |}, d)
    else OK (set_err b E_read, p', d)
  else read_loop (S (length (d_files b))) b p (u64 (num_words * d_ws b)) [].

(** d3_buffer.c:523-531: the file a byte position belongs to. *)
Fixpoint locate (files : list dfile) (i : nat) (byte_pos : Z) : option (nat * Z) :=
  match files with
  | [] => None
  | f :: r => if (byte_pos <? f_size f)%Z then Some (i, byte_pos) else locate r (i + 1) (byte_pos - f_size f)%Z
  end.

(** d3_buffer.c:514-705 *)
Definition seek (b : dbuf) (word_pos : Z) : res (dbuf * dptr) :=
  match locate (d_files b) 0 (u64 (word_pos * d_ws b)) with
  | None => OK (set_err b E_oob, closed)
  | Some (i, pos) =>
    do f <- aget (d_files b) i;
    if f_ok f then
      match fseek_to (s64 pos) with
      | Some q => OK (b, {| p_file := Some i; p_word := word_pos; p_pos := q |})
      | None => do p <- pointer_close b {| p_file := Some i; p_word := word_pos; p_pos := 0 |}; OK (set_err b E_seek, p)
      end
    else OK (set_err b E_open_next, closed)
  end.

(** d3_buffer.c:361-378 *)
Definition read_words_at (b : dbuf) (num_words word_pos : Z) : res (dbuf * dptr * list Z) :=
  do ' (b, p) <- seek b word_pos;
  match d_err b with
  | Some _ => OK (set_err b E_seek_failed, p, [])
  | None => read_words b p num_words
  end.

(** d3_buffer.c:409-428 *)
Definition skip_words (b : dbuf) (p : dptr) (num_words : Z) : res (dbuf * dptr) :=
  if (u64 (ULONG_MAX - num_words) <=? p_word p)%Z then
    match p_file p with
    | Some _ => do p' <- pointer_close b p; OK (set_err b E_bounds, p')
    | None => OK (set_err b E_bounds, p)
    end
  else
    do _ <- pointer_close b p;
    seek b (u64 (p_word p + num_words)).
(** d3_buffer.c:430-435 *)
Definition skip_bytes (b : dbuf) (p : dptr) (num_bytes : Z) : res (dbuf * dptr) := skip_words b p (num_bytes / d_ws b)%Z.

(** ** Opening *)

(** The number in a file name (d3_buffer.c:96, 123-126): "%02zu" below 10. *)
Definition digit (z : Z) : Z := (48 + z mod 10)%Z.
Definition index_string (i : nat) : list Z :=
  let z := Z.of_nat i in
  if i =? 0 then []
  else if (z <? 100)%Z then [digit (z / 10); digit z]
  else [digit (z / 100); digit (z / 10); digit z].

(** d3_buffer.c:98-130: the files root, root01, ..., root999 up to the first
    that does not exist.  [fs] is the file system (regular files only). *)
(** d3_buffer.c:80 *)
Definition MAX_FILES : nat := 1000.
Fixpoint family (fuel : nat) (fs : list Z -> option dfile) (root : list Z) (i : nat) : list dfile :=
  match fuel with
  | O => []
  | S fuel => match fs (root ++ index_string i) with
              | Some f => f :: family fuel fs root (i + 1)
              | None => []
              end
  end.

(** d3_buffer.c:152-227: one word of the control block; [dflt] if it cannot be
    read.  d3_pointer_close is called in any case. *)
Definition probe (b : dbuf) (word_pos dflt : Z) : res (dbuf * Z) :=
  do ' (b, p, d) <- read_words_at b 1 word_pos;
  do _ <- pointer_close b p;
  match d_err b with
  | Some _ => OK (clear_err b, dflt)
  | None => OK (b, le_value d)
  end.

(** d3_buffer.c:229-242 *)
Definition makes_sense (ndim icode inum it ia : Z) : bool :=
  ((2 <=? ndim) && (ndim <=? 7) && ((icode =? 2) || (icode =? 6)) &&
   (((1 <=? inum) && (inum <=? 13)) || ((21 <=? inum) && (inum <=? 26)) || ((1001 <=? inum) && (inum <=? 1013)) || ((1021 <=? inum) && (inum <=? 1026))) &&
   (((0 <=? it) && (it <=? 3)) || ((10 <=? it) && (it <=? 13))) && ((ia =? 0) || (ia =? 1)))%Z.

Definition probe_all (b : dbuf) : res (dbuf * bool) :=
  do ' (b, ndim) <- probe b 15 0;
  do ' (b, icode) <- probe b 17 0;
  do ' (b, inum) <- probe b 11 0;
  do ' (b, it) <- probe b 19 999;
  do ' (b, ia) <- probe b 22 999;
  OK (b, makes_sense ndim icode inum it ia).

(** d3_buffer.c:68-256.  The message of d3_buffer.c:137 is formatted into an array
    of 1024 bytes. *)
Definition open (fs : list Z -> option dfile) (root : list Z) : res dbuf :=
  let files := family MAX_FILES fs root 0 in
  let b := {| d_files := files; d_ws := 4; d_err := None |} in
  if length files =? 0 then
    if length root + 33 <=? 1024 then OK (set_err b E_no_files) else UB
  else
    do ' (b, m32) <- probe_all (set_ws b 4);
    do ' (b, m64) <- probe_all (set_ws b 8);
    if (negb m32 && negb m64) || (m32 && m64) then OK (set_err b E_broken)
    else OK (set_ws b (if m64 then 8 else 4)).
