(** * Model of the error messages of d3plot readers

    D3BufModel.v and D3ReadModel.v record which error occurred; here the error strings of
    the buffer and of the plot are carried as texts, with the array of 1024 bytes each of
    them is formatted in (d3_buffer.c:34-67, d3plot_error_macros.h:32-43).  [why] is what
    strerror(errno) returns.  The readers are those that read one block of words: title,
    run time, ids, time.  The thread safe build. *)
From Verif Require Import CBase BinModel TimedModel D3BufModel D3Model D3ReadModel.
Open Scope nat_scope.

(** d3_buffer.h:47-58 with the text of error_string. *)
Record tbuf : Type := { tb : dbuf; tb_text : option cstr }.
(** d3_buffer.c:47-51 ERROR_AND_NO_RETURN_BUFFER_PTR: as much room as the text needs. *)
Definition say (b : tbuf) (e : derr) (m : cstr) : tbuf := {| tb := set_err (tb b) e; tb_text := Some m |}.
(** d3_buffer.c:62-67 ERROR_AND_NO_RETURN_BUFFER_F_PTR: formatted into 1024 bytes first. *)
Definition sayf (b : tbuf) (e : derr) (m : cstr) : res tbuf := do m <- error_string m; OK (say b e m).

Definition m_read : cstr := bs "Read Error".
Definition m_too_much : cstr := bs "Requested too much words".
Definition m_oob : cstr := bs "Out of bounds".
Definition m_seek : cstr := bs "Seek Error".
Definition m_open_next (i : nat) (why : cstr) : cstr := bs "Failed to open next file(" ++ nat_string i ++ bs "): " ++ why.
Definition m_switch (m : cstr) : cstr := bs "Error when switching to next file: " ++ m.
Definition m_seek_failed (m : cstr) : cstr := bs "Failed to seek the buffer: " ++ m.
Definition m_words (m : cstr) : cstr := bs "Failed to read words: " ++ m.

(** d3_buffer.c:437-512 (472: the message) *)
Definition t_next_file (why : cstr) (b : tbuf) (p : dptr) : res (tbuf * dptr * bool) :=
  do ' (i, f) <- cur_file (tb b) p;
  let cur_word := u64 (p_word p + u64 (f_size f - p_pos p) / d_ws (tb b)) in
  let j := i + 1 in
  do p <- pointer_close (tb b) p;
  if j =? length (d_files (tb b)) then OK (b, p, false)
  else
    do g <- aget (d_files (tb b)) j;
    if f_ok g then OK (b, {| p_file := Some j; p_word := cur_word; p_pos := 0 |}, true)
    else do b <- sayf b E_open_next (m_open_next j why); OK (b, closed, false).

(** d3_buffer.c:305-355 *)
Fixpoint t_read_loop (why : cstr) (fuel : nat) (b : tbuf) (p : dptr) (num_bytes : Z) (acc : list Z) : res (tbuf * dptr * list Z) :=
  match fuel with
  | O => OOF
  | S fuel =>
    let bytes_read := Z.of_nat (length acc) in
    if (bytes_read <? num_bytes)%Z then
      do ' (_, f) <- cur_file (tb b) p;
      let from_cur := u64 (f_size f - p_pos p) in
      let left := (num_bytes - bytes_read)%Z in
      if (left <=? from_cur)%Z then
        let '(d, c) := fread_items (f_bytes f) (p_pos p) 1 left in
        let p' := {| p_file := p_file p; p_word := p_word p; p_pos := (p_pos p + Z.of_nat (length d))%Z |} in
        if (c =? left)%Z
        then OK (b, {| p_file := p_file p; p_word := u64 (p_word p + left / d_ws (tb b)); p_pos := p_pos p' |}, acc ++ d)
        else OK (say b E_read m_read, p', acc ++ d)
      else
        let '(d, c) := if (from_cur =? 0)%Z then ([], 0%Z) else fread_items (f_bytes f) (p_pos p) 1 from_cur in
        let p' := {| p_file := p_file p; p_word := p_word p; p_pos := (p_pos p + Z.of_nat (length d))%Z |} in
        if (c =? from_cur)%Z then
          let p' := {| p_file := p_file p; p_word := u64 (p_word p + from_cur / d_ws (tb b)); p_pos := p_pos p' |} in
          do ' (b', p'', ok) <- t_next_file why b p';
          if ok then t_read_loop why fuel b' p'' num_bytes (acc ++ d)
          else match tb_text b' with
               | Some m => do b' <- sayf b' E_switch (m_switch m); OK (b', p'', acc ++ d)
               | None => OK (say b' E_too_much m_too_much, p'', acc ++ d)
               end
        else OK (say b E_read m_read, p', acc ++ d)
    else OK (b, p, acc)
  end.

(** d3_buffer.c:282-359 *)
Definition t_read_words (why : cstr) (b : tbuf) (p : dptr) (num_words : Z) : res (tbuf * dptr * list Z) :=
  do ' (_, f) <- cur_file (tb b) p;
  if (u64 (num_words * d_ws (tb b)) <=? u64 (f_size f - p_pos p))%Z then
    let '(d, c) := fread_items (f_bytes f) (p_pos p) (d_ws (tb b)) num_words in
    let p' := {| p_file := p_file p; p_word := p_word p; p_pos := (p_pos p + Z.of_nat (length d))%Z |} in
    if (c =? num_words)%Z
    then OK (b, {| p_file := p_file p; p_word := u64 (p_word p + num_words); p_pos := p_pos p' |}, d)
    else OK (say b E_read m_read, p', d)
  else t_read_loop why (S (length (d_files (tb b)))) b p (u64 (num_words * d_ws (tb b))) [].

(** d3_buffer.c:514-705 *)
Definition t_seek (why : cstr) (b : tbuf) (word_pos : Z) : res (tbuf * dptr) :=
  match locate (d_files (tb b)) 0 (u64 (word_pos * d_ws (tb b))) with
  | None => OK (say b E_oob m_oob, closed)
  | Some (i, pos) =>
    do f <- aget (d_files (tb b)) i;
    if f_ok f then
      match fseek_to (s64 pos) with
      | Some q => OK (b, {| p_file := Some i; p_word := word_pos; p_pos := q |})
      | None => do p <- pointer_close (tb b) {| p_file := Some i; p_word := word_pos; p_pos := 0 |}; OK (say b E_seek m_seek, p)
      end
    else do b <- sayf b E_open_next (m_open_next i why); OK (b, closed)
  end.

(** d3_buffer.c:361-378: any text of the buffer is taken for a failure of the seek. *)
Definition t_read_words_at (why : cstr) (b : tbuf) (num_words word_pos : Z) : res (tbuf * dptr * list Z) :=
  do ' (b, p) <- t_seek why b word_pos;
  match tb_text b with
  | Some m => do b <- sayf b E_seek_failed (m_seek_failed m); OK (b, p, [])
  | None => t_read_words why b p num_words
  end.

(** The plot with the texts of its error_string and of the one of its buffer. *)
Record tplot : Type := { tp : plot; tp_text : option cstr; tp_btext : option cstr }.
(** D3PLOT_CLEAR_ERROR_STRING (d3plot_error_macros.h:70-72): the buffer's stays. *)
Definition t_clear (pl : tplot) : tplot := {| tp := clear (tp pl); tp_text := None; tp_btext := tp_btext pl |}.
(** The body of the readers, as d3plot.c:2896-2907, 2938-2946, 3272-3283. *)
Definition t_read_at (why : cstr) (pl : tplot) (n pos : Z) : res (tplot * option (list Z)) :=
  do ' (b, p, d) <- t_read_words_at why {| tb := pl_buf (tp pl); tb_text := tp_btext pl |} n pos;
  do _ <- pointer_close (tb b) p;
  match tb_text b with
  | Some m => do m' <- error_string (m_words m);
              OK ({| tp := with_err (with_buf (tp pl) (tb b)) (Some P_words); tp_text := Some m'; tp_btext := Some m |}, None)
  | None => OK ({| tp := with_buf (tp pl) (tb b); tp_text := tp_text pl; tp_btext := None |}, Some d)
  end.

(** Calls by a user. *)
Inductive call : Type := Title | Run_time | Node_ids | Solid_ids | Beam_ids | Shell_ids | Thick_shell_ids | Time (state : nat).
(** What they return: numbers (of a title: its bytes), or nothing behind an error. *)
Definition t_ids (why : cstr) (pl : tplot) (k : dkind) (num : Z) : res (tplot * option (list Z)) :=
  if (num =? 0)%Z then OK (pl, Some []) else
  do ' (pl, d) <- t_read_at why pl num (pl_ptr (tp pl) k);
  OK (pl, match d with Some d => Some (words (Z.to_nat num) (d_ws (pl_buf (tp pl))) d) | None => None end).
(** d3plot.c:2889-2911, 2934-2952, 484-535 with 3259-3306, 1273-1311 *)
Definition t_call (why : cstr) (pl : tplot) (c : call) : res (tplot * option (list Z)) :=
  let pl := t_clear pl in
  match c with
  | Title => t_read_at why pl 10 (pl_ptr (tp pl) K_TITLE)
  | Run_time => do ' (pl, d) <- t_read_at why pl 1 (pl_ptr (tp pl) K_RUN_TIME);
      OK (pl, match d with Some d => Some (map s64 (words 1 (d_ws (pl_buf (tp pl))) d)) | None => None end)
  | Node_ids => t_ids why pl K_NODE_IDS (pl_cd (tp pl) NUMNP)
  | Solid_ids => t_ids why pl K_EL8_IDS (u64 (pl_cd (tp pl) NEL8))
  | Beam_ids => t_ids why pl K_EL2_IDS (pl_cd (tp pl) NEL2)
  | Shell_ids => t_ids why pl K_EL4_IDS (pl_cd (tp pl) NEL4)
  | Thick_shell_ids => t_ids why pl K_ELT_IDS (pl_cd (tp pl) NELT)
  | Time state =>
    match state_at (tp pl) state with
    | None => do m <- error_string (nat_string state ++ bs " is out of bounds for the states");
              OK ({| tp := fail (tp pl) P_state; tp_text := Some m; tp_btext := tp_btext pl |}, None)
    | Some s =>
      do ' (pl, d) <- t_read_at why pl 1 (u64 (s + pl_ptr (tp pl) K_STATE_TIME));
      OK (pl, match d with Some d => Some (map (to_double (d_ws (pl_buf (tp pl)))) (words 1 (d_ws (pl_buf (tp pl))) d)) | None => None end)
    end
  end.
(** Several calls, one after the other. *)
Fixpoint t_calls (why : cstr) (pl : tplot) (cs : list call) : res (tplot * list (option (list Z))) :=
  match cs with
  | [] => OK (pl, [])
  | c :: cs => do ' (pl, r) <- t_call why pl c; do ' (pl, rs) <- t_calls why pl cs; OK (pl, r :: rs)
  end.

(** d3_buffer.c:140-149, 245-249 and d3plot.c:66-72: the message of a plot that cannot be opened. *)
Definition open_message (fs : list Z -> option dfile) (root : cstr) : res (option cstr) :=
  let files := family MAX_FILES fs root 0 in
  let b := {| d_files := files; d_ws := 4; d_err := None |} in
  if length files =? 0 then do m <- error_string (bs "No files with the name " ++ root ++ bs " do exist"); OK (Some m)
  else
    do ' (b, m32) <- probe_all (set_ws b 4);
    do ' (b, m64) <- probe_all (set_ws b 8);
    if (negb m32 && negb m64) || (m32 && m64) then
      do m <- error_string (bs "The d3plot files are broken. 32-Bit (Single Precision)=" ++ nat_string (if m32 then 1 else 0) ++ bs " 64-Bit (Double Precision)=" ++ nat_string (if m64 then 1 else 0));
      OK (Some m)
    else OK None.

(** d3plot.c:3082-3122 [_d3plot_get_file_type_name]; d3_defines.h:226-242 *)
Definition file_type_name (t : Z) : cstr :=
  (if t =? 1 then bs "d3plot" else if t =? 2 then bs "d3drlf" else if t =? 3 then bs "d3thdt" else if t =? 4 then bs "intfor"
   else if t =? 5 then bs "d3part" else if t =? 6 then bs "blstfor" else if t =? 7 then bs "d3cpm" else if t =? 8 then bs "d3ale"
   else if t =? 11 then bs "d3eigv" else if t =? 12 then bs "d3mode" else if t =? 13 then bs "d3iter"
   else if t =? 21 then bs "d3ssd" else if t =? 22 then bs "d3spcm" else if t =? 23 then bs "d3psd" else if t =? 24 then bs "d3rms"
   else if t =? 25 then bs "d3ftg" else if t =? 26 then bs "d3acs" else bs "invalid")%Z.
(** d3plot.c:86-100: sprintf into malloc(50). *)
Definition file_type_message (word : Z) : res (option cstr) :=
  let t := (if 1000 <? word then word - 1000 else word)%Z in
  if (t =? 1)%Z then OK None
  else let m := bs "Wrong file type: " ++ file_type_name t in if S (length m) <=? 50 then OK (Some m) else UB.
