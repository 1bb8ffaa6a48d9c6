(** * Model of src/d3_buffer.c and src/multi_file.c in the build without thread
    safety (NO_THREAD_SAFETY): at most as many files of a family are open as
    the process may open, the others are opened when they are needed

    A multi_file_t is a FILE pointer (NULL: [sf_open = false]); the index of a
    pointer is its position in the file (multi_file.h:55-57), every read seeks
    there first (multi_file.c:250-264).  The process may have [s_limit] FILEs
    of the family open at a time; [s_count] are open, including those nothing
    points to any more.  fopen fails with EMFILE at the limit.  The address
    &files[ULONG_MAX] that d3_pointer_close computes for a closed pointer is
    not used and not counted as an access.  Everything else as in
    D3BufModel.v. *)
From Verif Require Import CBase BinModel D3BufModel.

Record sfile : Type := { sf_file : dfile; sf_open : bool }.
(** d3_buffer.h:47-58 *)
Record sbuf : Type := { s_files : list sfile; s_first : nat; s_last : nat; s_ws : Z; s_err : option derr; s_count : nat; s_limit : nat }.

Definition s_set_err (b : sbuf) (e : option derr) : sbuf :=
  {| s_files := s_files b; s_first := s_first b; s_last := s_last b; s_ws := s_ws b; s_err := e; s_count := s_count b; s_limit := s_limit b |}.
Definition s_set_ws (b : sbuf) (w : Z) : sbuf :=
  {| s_files := s_files b; s_first := s_first b; s_last := s_last b; s_ws := w; s_err := s_err b; s_count := s_count b; s_limit := s_limit b |}.
Definition s_set_window (b : sbuf) (first last : nat) : sbuf :=
  {| s_files := s_files b; s_first := first; s_last := last; s_ws := s_ws b; s_err := s_err b; s_count := s_count b; s_limit := s_limit b |}.
Definition s_set_files (b : sbuf) (fs : list sfile) (count : nat) : sbuf :=
  {| s_files := fs; s_first := s_first b; s_last := s_last b; s_ws := s_ws b; s_err := s_err b; s_count := count; s_limit := s_limit b |}.

(** buffer->files[i].file = fopen(...): [false]: the pointer is NULL now. *)
Definition s_fopen (b : sbuf) (i : nat) : res (sbuf * bool) :=
  do f <- aget (s_files b) i;
  let ok := (s_count b <? s_limit b) && f_ok (sf_file f) in
  do fs <- aset (s_files b) i {| sf_file := sf_file f; sf_open := ok |};
  OK (s_set_files b fs (if ok then s_count b + 1 else s_count b), ok).
(** multi_file.c:201-210 [multi_file_close] *)
Definition s_fclose (b : sbuf) (i : nat) : res sbuf :=
  do f <- aget (s_files b) i;
  if sf_open f then
    do fs <- aset (s_files b) i {| sf_file := sf_file f; sf_open := false |};
    OK (s_set_files b fs (s_count b - 1))
  else OK b.

(** Loops that close [n] files from [i] upwards (d3_buffer.c:598-604, 661-664) or downwards
    (d3_buffer.c:634-637), or open them (617-632, 666-683, 641-657); [false]: one cannot be opened. *)
Fixpoint s_close_up (b : sbuf) (i n : nat) : res sbuf :=
  match n with O => OK b | S n => do b <- s_fclose b i; s_close_up b (i + 1) n end.
Fixpoint s_close_down (b : sbuf) (i n : nat) : res sbuf :=
  match n with O => OK b | S n => do b <- s_fclose b i; s_close_down b (i - 1) n end.
Fixpoint s_open_up (b : sbuf) (i n : nat) : res (sbuf * bool) :=
  match n with O => OK (b, true) | S n => do ' (b, ok) <- s_fopen b i; if ok then s_open_up b (i + 1) n else OK (b, false) end.
Fixpoint s_open_down (b : sbuf) (i n : nat) : res (sbuf * bool) :=
  match n with O => OK (b, true) | S n => do ' (b, ok) <- s_fopen b i; if ok then s_open_down b (i - 1) n else OK (b, false) end.

(** d3_buffer.c:572-693: the files that are open move until [cur] is one of
    them.  [false]: one could not be opened. *)
Definition s_out_of_range (b : sbuf) (cur : nat) : bool :=
  let first := Z.of_nat (s_first b) in let last := Z.of_nat (s_last b) in let c := Z.of_nat cur in
  if (first <? last)%Z then
    if (last <? c)%Z then (u64 (last - first + 1) <? u64 (c - last))%Z else (u64 (last - first + 1) <? u64 (first - c))%Z
  else false.
(** d3_buffer.c:594-632 *)
Definition s_move_far (b : sbuf) (cur : nat) : res (sbuf * bool) :=
  let file_range := s_last b + 1 - s_first b in
  do b <- s_close_up b (s_first b) file_range;
  let start_offset := if length (s_files b) - cur <? file_range then cur - (length (s_files b) - file_range) else 0 in
  let i := cur - start_offset in
  do ' (b, ok) <- s_open_up (s_set_window b i (s_last b)) i file_range;
  if ok then OK (s_set_window b (s_first b) (i + file_range - 1), true) else OK (b, false).
(** d3_buffer.c:635-658; behind file 0 the index wraps around. *)
Definition s_move_back (b : sbuf) (cur : nat) : res (sbuf * bool) :=
  let files_to_close := s_first b - cur in
  do b <- s_close_down b (s_last b) files_to_close;
  let b := s_set_window b (s_first b) (s_last b - files_to_close) in
  do ' (b, ok) <- s_open_down b (s_first b) (s_first b + 1 - cur);
  if ok then if cur =? 0 then UB else OK (s_set_window b cur (s_last b), true) else OK (b, false).
(** d3_buffer.c:659-689 *)
Definition s_move_ahead (b : sbuf) (cur : nat) : res (sbuf * bool) :=
  let files_to_close := u64 (Z.of_nat cur - Z.of_nat (s_last b)) in
  let bound := u64 (Z.of_nat (s_first b) + files_to_close) in
  do b <- s_close_up b (s_first b) (Z.to_nat (bound - Z.of_nat (s_first b)));
  let b := s_set_window b (Z.to_nat bound) (s_last b) in
  do ' (b, ok) <- s_open_up b (s_last b) (cur + 1 - s_last b);
  if ok then OK (s_set_window b (s_first b) cur, true) else OK (b, false).
Definition s_move (b : sbuf) (cur : nat) : res (sbuf * bool) :=
  if s_out_of_range b cur then s_move_far b cur
  else if s_first b <? s_last b then
    if cur <? s_first b then s_move_back b cur else s_move_ahead b cur
  else OK (b, true).

Definition s_cur_file (b : sbuf) (p : dptr) : res (nat * sfile) :=
  match p_file p with None => UB | Some i => do f <- aget (s_files b) i; OK (i, f) end.
Definition s_locate (files : list sfile) (byte_pos : Z) : option (nat * Z) := locate (map sf_file files) 0 byte_pos.

(** d3_buffer.c:514-705 *)
Definition s_seek (b : sbuf) (word_pos : Z) : res (sbuf * dptr) :=
  match s_locate (s_files b) (u64 (word_pos * s_ws b)) with
  | None => OK (s_set_err b (Some E_oob), closed)
  | Some (i, pos) =>
    do f <- aget (s_files b) i;
    do ' (b, ok) <- (if sf_open f then OK (b, true) else s_move b i);
    if ok then
      do f <- aget (s_files b) i;
      if sf_open f then
        match fseek_to (s64 pos) with
        | Some q => OK (b, {| p_file := Some i; p_word := word_pos; p_pos := q |})
        | None => OK (s_set_err b (Some E_seek), closed)
        end
      else UB
    else OK (s_set_err b (Some E_open_next), closed)
  end.

(** d3_buffer.c:437-512 *)
Definition s_next_file (b : sbuf) (p : dptr) : res (sbuf * dptr * bool) :=
  do ' (i, f) <- s_cur_file b p;
  let cur_word := u64 (p_word p + u64 (f_size (sf_file f) - p_pos p) / s_ws b) in
  let j := i + 1 in
  if j =? length (s_files b) then OK (b, closed, false)
  else
    let p := {| p_file := Some j; p_word := cur_word; p_pos := 0 |} in
    do g <- aget (s_files b) j;
    do ' (b, ok) <- (if sf_open g then OK (b, true)
      else do b <- s_fclose b (s_first b); s_fopen (s_set_window b (s_first b + 1) (s_last b + 1)) j);
    if ok then OK (b, p, true) else OK (s_set_err b (Some E_open_next), p, false).

(** d3_buffer.c:305-355 *)
Fixpoint s_read_loop (fuel : nat) (b : sbuf) (p : dptr) (num_bytes : Z) (acc : list Z) : res (sbuf * dptr * list Z) :=
  match fuel with
  | O => OOF
  | S fuel =>
    let bytes_read := Z.of_nat (length acc) in
    if (bytes_read <? num_bytes)%Z then
      do ' (_, sf) <- s_cur_file b p;
      let f := sf_file sf in
      let from_cur := u64 (f_size f - p_pos p) in
      let left := (num_bytes - bytes_read)%Z in
      if (left <=? from_cur)%Z then
        if sf_open sf then
          let '(d, c) := fread_items (f_bytes f) (p_pos p) 1 left in
          let p' := {| p_file := p_file p; p_word := p_word p; p_pos := (p_pos p + Z.of_nat (length d))%Z |} in
          if (c =? left)%Z
          then OK (b, {| p_file := p_file p; p_word := u64 (p_word p + left / s_ws b); p_pos := p_pos p' |}, acc ++ d)
          else OK (s_set_err b (Some E_read), p', acc ++ d)
        else UB
      else if (sf_open sf || (from_cur =? 0)%Z)%bool then
        let '(d, c) := if (from_cur =? 0)%Z then ([], 0%Z) else fread_items (f_bytes f) (p_pos p) 1 from_cur in
        let p' := {| p_file := p_file p; p_word := p_word p; p_pos := (p_pos p + Z.of_nat (length d))%Z |} in
        if (c =? from_cur)%Z then
          let p' := {| p_file := p_file p; p_word := u64 (p_word p + from_cur / s_ws b); p_pos := p_pos p' |} in
          do ' (b', p'', ok) <- s_next_file b p';
          if ok then s_read_loop fuel b' p'' num_bytes (acc ++ d)
          else match s_err b' with
               | Some _ => OK (s_set_err b' (Some E_switch), p'', acc ++ d)
               | None => OK (s_set_err b' (Some E_too_much), p'', acc ++ d)
               end
        else OK (s_set_err b (Some E_read), p', acc ++ d)
      else UB
    else OK (b, p, acc)
  end.
(** d3_buffer.c:282-359 *)
Definition s_read_words (b : sbuf) (p : dptr) (num_words : Z) : res (sbuf * dptr * list Z) :=
  do ' (_, sf) <- s_cur_file b p;
  let f := sf_file sf in
  if (u64 (num_words * s_ws b) <=? u64 (f_size f - p_pos p))%Z then
    if sf_open sf then
      let '(d, c) := fread_items (f_bytes f) (p_pos p) (s_ws b) num_words in
      let p' := {| p_file := p_file p; p_word := p_word p; p_pos := (p_pos p + Z.of_nat (length d))%Z |} in
      if (c =? num_words)%Z
      then OK (b, {| p_file := p_file p; p_word := u64 (p_word p + num_words); p_pos := p_pos p' |}, d)
      else OK (s_set_err b (Some E_read), p', d)
    else UB
  else s_read_loop (S (length (s_files b))) b p (u64 (num_words * s_ws b)) [].
(** d3_buffer.c:361-378 *)
Definition s_read_words_at (b : sbuf) (num_words word_pos : Z) : res (sbuf * dptr * list Z) :=
  do ' (b, p) <- s_seek b word_pos;
  match s_err b with
  | Some _ => OK (s_set_err b (Some E_seek_failed), p, [])
  | None => s_read_words b p num_words
  end.
(** d3_buffer.c:409-428 *)
Definition s_skip_words (b : sbuf) (p : dptr) (num_words : Z) : res (sbuf * dptr) :=
  if (u64 (ULONG_MAX - num_words) <=? p_word p)%Z then OK (s_set_err b (Some E_bounds), closed)
  else s_seek b (u64 (p_word p + num_words)).

(** d3_buffer.c:98-130 with 109-120: [None]: a file cannot be opened for another reason
    than the limit; otherwise the files, their number, and the last that is open. *)
Fixpoint s_open_files (limit : nat) (i : nat) (files : list dfile) (count : nat) (last : option nat) : option (list sfile * nat * option nat) :=
  match files with
  | [] => Some ([], count, last)
  | f :: r =>
    if count <? limit then
      if f_ok f then
        match s_open_files limit (i + 1) r (count + 1) (Some i) with
        | Some (fs, c, l) => Some ({| sf_file := f; sf_open := true |} :: fs, c, l)
        | None => None
        end
      else None
    else
      match s_open_files limit (i + 1) r count last with
      | Some (fs, c, l) => Some ({| sf_file := f; sf_open := false |} :: fs, c, l)
      | None => None
      end
  end.
(** d3_buffer.c:152-227 *)
Definition s_probe (b : sbuf) (word_pos dflt : Z) : res (sbuf * Z) :=
  do ' (b, _, d) <- s_read_words_at b 1 word_pos;
  match s_err b with
  | Some _ => OK (s_set_err b None, dflt)
  | None => OK (b, le_value d)
  end.
Definition s_probe_all (b : sbuf) : res (sbuf * bool) :=
  do ' (b, ndim) <- s_probe b 15 0;
  do ' (b, icode) <- s_probe b 17 0;
  do ' (b, inum) <- s_probe b 11 0;
  do ' (b, it) <- s_probe b 19 999;
  do ' (b, ia) <- s_probe b 22 999;
  OK (b, makes_sense ndim icode inum it ia).
(** d3_buffer.c:68-256; [E_open_next] stands for the messages of 113-116 and 142-145. *)
Definition s_open_buffer (limit : nat) (fs : list Z -> option dfile) (root : list Z) : res sbuf :=
  let files := family MAX_FILES fs root 0 in
  let failed e := {| s_files := []; s_first := 0; s_last := 0; s_ws := 4; s_err := Some e; s_count := 0; s_limit := limit |} in
  match s_open_files limit 0 files 0 None with
  | None => OK (failed E_open_next)
  | Some (sfs, count, last) =>
    if length files =? 0 then if length root + 33 <=? 1024 then OK (failed E_no_files) else UB
    else
      match last with
      | None => OK (failed E_open_next)
      | Some last =>
        let b := {| s_files := sfs; s_first := 0; s_last := last; s_ws := 4; s_err := None; s_count := count; s_limit := limit |} in
        do ' (b, m32) <- s_probe_all (s_set_ws b 4);
        do ' (b, m64) <- s_probe_all (s_set_ws b 8);
        if (negb m32 && negb m64) || (m32 && m64) then OK (s_set_err b (Some E_broken))
        else OK (s_set_ws b (if m64 then 8 else 4))
      end
  end.
