(** * Model of src/line.c

    [N] is LINE_READER_BUFFER_SIZE (line.h:32: 1024*1024, any positive number
    here); [fill k] is what the [k]-th uninitialised cell of [line.extra]
    contains after a [realloc]; the initial content of [line.buffer] (a field
    of a stack object) is a parameter of [new_line_reader].  The stream is the
    list of bytes not yet read and the EOF flag; [ferror] never holds and
    [fread] returns less than [N] bytes only at the end of the file. *)
From Verif Require Import CBase StringModel.

(** line.h:36-50 [line_reader_t].  [buffer[0..bytes_read)] is [lr_chunk]. *)
Record line_reader := {
  lr_rest : list Z; lr_eof : bool;
  lr_line : extra_string; lr_len : nat; lr_comment : option nat;
  lr_chunk : list Z; lr_index : nat }.

(** line.c:33-45 [new_line_reader]; [buffer_index] is not initialised there. *)
Definition new_line_reader (file : list Z) (stack : list Z) (index : nat) : line_reader :=
  {| lr_rest := file; lr_eof := false;
     lr_line := {| es_buffer := stack; es_extra := [] |}; lr_len := 0; lr_comment := None;
     lr_chunk := []; lr_index := index |}.

(** line.c:86-92: growing [line.extra]; [extra_capacity] is its length. *)
Definition lr_grow (fill : nat -> Z) (l : extra_string) (len : nat) : extra_string :=
  if (ESB <=? len) && (length (es_extra l) <? len + 1 - ESB)
  then {| es_buffer := es_buffer l;
          es_extra := es_extra l ++ map fill (seq (length (es_extra l)) ESB) |}
  else l.

(** line.c:69-99, the loop over the bytes in the buffer ([n] bytes are left).
    [cursor] always points to character [line_length] of the line (it is
    moved with every increment and recomputed at the switch to [extra] and
    after [realloc]), so it is represented by that index. *)
Fixpoint rl_inner (fill : nat -> Z) (n : nat) (st : line_reader) : res line_reader :=
  match n with
  | O => OK st
  | S n' =>
    do c <- aget (lr_chunk st) (lr_index st);
    do l <- extra_string_set (lr_line st) (lr_len st) c;
    let com := match lr_comment st with
               | None => if (c =? DOLLAR)%Z then Some (lr_len st) else None
               | Some k => Some k
               end in
    let st1 len l := {| lr_rest := lr_rest st; lr_eof := lr_eof st; lr_line := l; lr_len := len;
                        lr_comment := com; lr_chunk := lr_chunk st; lr_index := lr_index st + 1 |} in
    if (c =? CR)%Z then rl_inner fill n' (st1 (lr_len st) l)
    else if (c =? LF)%Z then OK (st1 (lr_len st) l)
    else rl_inner fill n' (st1 (lr_len st + 1) (lr_grow fill l (lr_len st + 1)))
  end.

(** line.c:105 [*cursor = '\0'] *)
Definition rl_finish (st : line_reader) : res line_reader :=
  do l <- extra_string_set (lr_line st) (lr_len st) NUL;
  OK {| lr_rest := lr_rest st; lr_eof := lr_eof st; lr_line := l; lr_len := lr_len st;
        lr_comment := lr_comment st; lr_chunk := lr_chunk st; lr_index := lr_index st |}.

(** line.c:69-103: the inner loop and the test behind it; [again] is the next
    iteration of the outer loop. *)
Definition rl_consume (fill : nat -> Z) (again : line_reader -> res line_reader)
  (st : line_reader) : res line_reader :=
  do st <- rl_inner fill (length (lr_chunk st) - lr_index st) st;
  do c <- extra_string_get (lr_line st) (lr_len st);
  if (c =? LF)%Z then rl_finish st else again st.

(** line.c:57-105, the outer loop. *)
Fixpoint rl_outer (N : nat) (fill : nat -> Z) (fuel : nat) (st : line_reader) : res line_reader :=
  match fuel with
  | O => OOF
  | S f =>
    if (length (lr_chunk st) =? 0) || (length (lr_chunk st) <=? lr_index st) then
      let chunk := firstn N (lr_rest st) in
      let rest := skipn N (lr_rest st) in
      let eof := if length chunk <? N then true else lr_eof st in
      if length chunk =? 0 then
        rl_finish {| lr_rest := rest; lr_eof := eof; lr_line := lr_line st; lr_len := lr_len st;
                     lr_comment := lr_comment st; lr_chunk := []; lr_index := lr_index st |}
      else
        rl_consume fill (rl_outer N fill f)
          {| lr_rest := rest; lr_eof := eof; lr_line := lr_line st; lr_len := lr_len st;
             lr_comment := lr_comment st; lr_chunk := chunk; lr_index := 0 |}
    else rl_consume fill (rl_outer N fill f) st
  end.

(** line.c:47-109 [read_line]; every iteration but the first and the last
    reads at least one byte of the file. *)
Definition read_line (N : nat) (fill : nat -> Z) (st : line_reader) : res (bool * line_reader) :=
  let st := {| lr_rest := lr_rest st; lr_eof := lr_eof st; lr_line := lr_line st; lr_len := 0;
               lr_comment := None; lr_chunk := lr_chunk st; lr_index := lr_index st |} in
  if lr_eof st && (length (lr_chunk st) <=? lr_index st) then OK (false, st)
  else do st <- rl_outer N fill (length (lr_rest st) + 3) st; OK (true, st).

(** What the caller sees of one line: memory, length, comment index. *)
Definition seen (st : line_reader) : list Z * nat * option nat :=
  (es_buffer (lr_line st) ++ es_extra (lr_line st), lr_len st, lr_comment st).

(** key.c:283 [while (read_line(&line_reader))], collecting what is seen. *)
Fixpoint read_lines (N : nat) (fill : nat -> Z) (fuel : nat) (st : line_reader)
  : res (list (list Z * nat * option nat)) :=
  match fuel with
  | O => OOF
  | S f =>
    do ' (more, st) <- read_line N fill st;
    if more then do r <- read_lines N fill f st; OK (seen st :: r) else OK []
  end.
