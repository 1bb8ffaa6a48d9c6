(** * Model of key_file_parse_with_callback (src/key.c:178-687) *)
From Verif Require Import CBase StringModel PathModel LineModel KeyTableModel.

(** What the outside world sees of a parse, in chronological order: callback
    invocations and pushed messages.  The error (warning) string is the list of
    the error (warning) messages joined by line feeds: a nested parse hands its
    string to [_message_stack_push] (key.c:37-43, 407-419), so the order is the
    chronological one.  The text of a message is reduced to its kind and the
    name in it; [info] (file name, line number, include paths; key.c:68-74) is
    not part of an event. *)
Inductive item :=
| Ev (e : event)
| NotFound (name : cstr)           (* error:   "name" could not be found *)
| IgnoredNotFound (name : cstr)    (* warning: "name" could not be found *)
| PathNotFound (name : cstr)       (* warning: INCLUDE_PATH(_RELATIVE) has not been found *)
| CardCount (n : nat)              (* warning: Invalid number of cards *)
| OpenFailed.                      (* error:   Failed to open key file *)

(** key.h [key_parse_config_t] *)
Record key_config := {
  parse_includes : bool; ignore_not_found_includes : bool; extra_include_paths : list cstr }.

(** The file system: regular files (path_is_file, path.c:241-257, fopen,
    fread) with their content, directories (path_is_directory, path.c:272-288)
    and the working directory (path_working_directory, path.c:316-331).
    Every regular file can be opened and read without errors. *)
Record world := { w_file : cstr -> option (list Z); w_dir : cstr -> bool; w_cwd : cstr }.

(** key.h [key_parse_recursion_t] *)
Record recursion := { rc_paths : list cstr; rc_root : cstr; rc_applied : bool }.

(** What is arbitrary in the execution: size of the file buffer, uninitialised
    memory of the line reader and of [current_keyword_name] (the same in all
    nested calls). *)
Record garbage := { g_N : nat; g_fill : nat -> Z; g_line : list Z; g_index : nat; g_name : list Z }.

(** Local variables of the parser (key.c:274-285).
    [line_count] is only used for messages. *)
Record parser := {
  p_name : extra_string; p_klen : nat; p_card : nat; p_count : nat;
  p_multi : string_builder; p_rec : recursion; p_log : list item }.

Definition emit (st : parser) (l : list item) : parser :=
  {| p_name := p_name st; p_klen := p_klen st; p_card := p_card st; p_count := p_count st;
     p_multi := p_multi st; p_rec := p_rec st; p_log := p_log st ++ l |}.
Definition with_multi (st : parser) (m : string_builder) : parser :=
  {| p_name := p_name st; p_klen := p_klen st; p_card := p_card st; p_count := p_count st;
     p_multi := m; p_rec := p_rec st; p_log := p_log st |}.
Definition with_rec (st : parser) (r : recursion) : parser :=
  {| p_name := p_name st; p_klen := p_klen st; p_card := p_card st; p_count := p_count st;
     p_multi := p_multi st; p_rec := r; p_log := p_log st |}.
Definition with_card (st : parser) (k : nat) : parser :=
  {| p_name := p_name st; p_klen := p_klen st; p_card := k; p_count := p_count st;
     p_multi := p_multi st; p_rec := p_rec st; p_log := p_log st |}.
Definition with_name (st : parser) (n : extra_string) (len : nat) : parser :=
  {| p_name := n; p_klen := len; p_card := p_card st; p_count := p_count st;
     p_multi := p_multi st; p_rec := p_rec st; p_log := p_log st |}.
Definition count_line (st : parser) : parser :=
  {| p_name := p_name st; p_klen := p_klen st; p_card := p_card st; p_count := p_count st + 1;
     p_multi := p_multi st; p_rec := p_rec st; p_log := p_log st |}.
Definition add_path (r : recursion) (p : cstr) : recursion :=
  {| rc_paths := rc_paths r ++ [p]; rc_root := rc_root r; rc_applied := rc_applied r |}.

(** number of digits of a [size_t] printed with %zu (at most 20) *)
Fixpoint zu_len (fuel n : nat) : nat :=
  match fuel with
  | O => 0
  | S f => if n <? 10 then 1 else 1 + zu_len f (n / 10)
  end.

(** key.c:45-55 [_message_stack_push_f]: [vsprintf] into 1024 bytes; [fixed]
    is the number of characters of the format that are not conversions. *)
Definition message_fits (st : parser) (file : cstr) (name : cstr) (fixed : nat) : bool :=
  length file + zu_len 20 (p_count st) + length name + fixed <? 1024.
Definition push_f (st : parser) (file : cstr) (name : cstr) (fixed : nat) (m : item) : res parser :=
  if message_fits st file name fixed then OK (emit st [m]) else UB.

(** the C string in the builder's buffer (NULL if it was never used) *)
Definition sb_text (b : string_builder) : res cstr :=
  match sb_buffer b with Some m => cstring_at m | None => UB end.

(** key.c:323-330 / 590-597 / 630-637: the keyword name handed to the callback. *)
Definition callback_name (st : parser) : res cstr :=
  if p_klen st <? ESB then cstring_at (es_buffer (p_name st))
  else
    do b <- extra_string_copy_to_string (malloc (p_klen st + 1)) (p_name st) (p_klen st);
    do b <- aset b (p_klen st) NUL;
    cstring_at b.

(** key.c:308-311 [while (extra_string_get(line, i) == ' ') i++] *)
Fixpoint es_blanks (fuel : nat) (e : extra_string) (i : nat) : res nat :=
  match fuel with
  | O => OOF
  | S f => do c <- extra_string_get e i; if (c =? SPACE)%Z then es_blanks f e (i + 1) else OK i
  end.

(** key.c:344-352: length of the keyword name *)
Fixpoint es_word (fuel : nat) (e : extra_string) (i : nat) : res nat :=
  match fuel with
  | O => OOF
  | S f => do c <- extra_string_get e i;
    if (c =? SPACE)%Z || (c =? NUL)%Z then OK i else es_word f e (i + 1)
  end.

Definition es_size (e : extra_string) : nat := length (es_buffer e) + length (es_extra e).

(** key.c:316-366, a keyword line; [i] is the position of '*'.  Result: the
    new state and whether the loop is left (keyword END). *)
Definition key_keyword (line : extra_string) (len i : nat) (st : parser) : res (parser * bool) :=
  do st <- (if negb (p_klen st =? 0) && (p_card st =? 0) then
      do n <- callback_name st; OK (emit st [Ev (n, None, None)])
    else OK st);
  do kn <- extra_string_copy (p_name st) line len (i + 1);
  do k <- es_word (S (es_size kn)) kn 0;
  do kn <- extra_string_set kn k NUL;
  let st := with_name st kn k in
  do stop <- (if k =? 3 then do c <- extra_string_compare kn (bs "END"); OK (c =? 0)%Z else OK false);
  if stop then OK (st, true) else OK (with_card st 0, false).

(** key.c:1579-1582: skipping the leading blanks of the card. *)
Fixpoint multi_blanks (n : nat) (card : list Z) (i : nat) : res nat :=
  match n with
  | O => OK i
  | S n' => do c <- aget card i; if (c =? SPACE)%Z then multi_blanks n' card (i + 1) else OK i
  end.

(** key.c:1605-1608: [while (buffer[ptr - 1] == ' ' && ptr != 0) ptr--];
    with [ptr] = 0 the read is in front of the buffer. *)
Fixpoint multi_trim (buf : list Z) (ptr : nat) : res nat :=
  match ptr with
  | O => UB
  | S p => do c <- aget buf p; if (c =? SPACE)%Z then multi_trim buf p else OK ptr
  end.

(** key.c:1572-1614 [_parse_multi_line_string]; [card] is the memory at
    [card->string].  The test [buffer[ptr - 2] == ' '] reads in front of the
    buffer for [ptr] < 2. *)
Definition parse_multi_line_string (m : string_builder) (card : list Z) (len : nat)
  : res (string_builder * bool) :=
  do k <- (if sb_cap m =? 0 then multi_blanks len card 0 else OK 0);
  if (sb_cap m =? 0) && (k =? len) then
    do m <- string_builder_append_char m NUL; OK (m, true)
  else
    do m <- string_builder_append_len m (skipn k card) (len - k);
    let buf := sb_cells m in
    let ptr := sb_ptr m in
    if ptr <? 2 then UB
    else
      do c2 <- aget buf (ptr - 2);
      do c1 <- aget buf (ptr - 1);
      if (c2 =? SPACE)%Z && (c1 =? PLUS)%Z then
        OK ({| sb_buffer := sb_buffer m; sb_cap := sb_cap m; sb_ptr := ptr - 2 |}, false)
      else
        do ptr <- multi_trim buf ptr;
        do buf <- aset buf ptr NUL;
        OK ({| sb_buffer := Some buf; sb_cap := sb_cap m; sb_ptr := ptr |}, true).

(** key.c:388-401: the first include path under which the file exists. *)
Fixpoint find_include (w : world) (paths : list cstr) (name : cstr) : res (option cstr) :=
  match paths with
  | [] => OK None
  | p :: t =>
    do full <- path_join p name;
    match w_file w full with
    | Some _ => OK (Some full)
    | None => find_include w t name
    end
  end.

(** key.c:386-431: a complete INCLUDE file name is in the builder. *)
Definition key_include (include : recursion -> cstr -> res (list item * recursion))
  (cfg : key_config) (w : world) (file : cstr) (st : parser) : res parser :=
  do name <- sb_text (p_multi st);
  do full <- find_include w (rc_paths (p_rec st)) name;
  do st <- match full with
      | Some f => do ' (l, r) <- include (p_rec st) f; OK (with_rec (emit st l) r)
      | None =>
        if ignore_not_found_includes cfg then push_f st file name 24 (IgnoredNotFound name)
        else push_f st file name 24 (NotFound name)
      end;
  OK (with_card (with_multi st string_builder_new) (p_card st + 1)).

Definition is_name (st : parser) (n : string) : res bool :=
  do c <- extra_string_compare (p_name st) (bs n); OK (c =? 0)%Z.

(** key.c:580-612: the callback for a card. *)
Definition key_card_callback (card : list Z) (st : parser) : res parser :=
  do c <- match sb_buffer (p_multi st) with Some m => cstring_at m | None => cstring_at card end;
  let st := match sb_buffer (p_multi st) with
            | Some _ => with_multi st string_builder_new | None => st end in
  do n <- callback_name st;
  OK (with_card (emit st [Ev (n, Some c, Some (p_card st))]) (p_card st + 1)).

(** key.c:378-577: the cards of INCLUDE keywords.  Result: the state and
    whether the rest of the loop body is skipped ([continue]). *)
Definition key_include_card (include : recursion -> cstr -> res (list item * recursion))
  (cfg : key_config) (w : world) (file : cstr) (card : list Z) (len : nat) (st : parser)
  : res (parser * bool) :=
  if parse_includes cfg then
    do inc <- is_name st "INCLUDE";
    do bin <- is_name st "INCLUDE_BINARY";
    do nas <- is_name st "INCLUDE_NASTRAN";
    if inc || (bin && (p_card st =? 0)) || (nas && (p_card st =? 0)) then
      do ' (m, complete) <- parse_multi_line_string (p_multi st) card len;
      let st := with_multi st m in
      if complete then do st <- key_include include cfg w file st; OK (st, true)
      else OK (st, true)
    else
      do path <- is_name st "INCLUDE_PATH";
      if path then
        do ' (m, complete) <- parse_multi_line_string (p_multi st) card len;
        let st := with_multi st m in
        if complete then
          do name <- sb_text m;
          do st <- (if w_dir w name then OK (with_rec st (add_path (p_rec st) name))
                    else push_f st file name 38 (PathNotFound name));
          OK (with_card (with_multi st string_builder_new) (p_card st + 1), true)
        else OK (st, true)
      else
        do rel <- is_name st "INCLUDE_PATH_RELATIVE";
        if rel then
          do ' (m, complete) <- parse_multi_line_string (p_multi st) card len;
          let st := with_multi st m in
          if complete then
            do name <- sb_text m;
            do full <- path_join (rc_root (p_rec st)) name;
            do st <- (if w_dir w full then OK (with_rec st (add_path (p_rec st) full))
                      else push_f st file full 47 (PathNotFound full));
            OK (with_card (with_multi st string_builder_new) (p_card st + 1), true)
          else OK (st, true)
        else if bin then
          do st <- push_f st file [] 75 (CardCount (p_card st + 1));
          OK (with_card st (p_card st + 1), true)
        else if nas then
          do st <- (if p_card st =? 1 then OK st else push_f st file [] 76 (CardCount (p_card st + 1)));
          OK (with_card st (p_card st + 1), true)
        else
          do multiscale <- extra_string_starts_with (p_name st) (bs "INCLUDE_MULTISCALE");
          if multiscale then OK (st, false)
          else if p_card st =? 0 then
            do ' (m, complete) <- parse_multi_line_string (p_multi st) card len;
            OK (with_multi st m, negb complete)
          else OK (st, false)
  else
    do multiscale <- extra_string_starts_with (p_name st) (bs "INCLUDE_MULTISCALE");
    if multiscale then OK (st, false)
    else
      do inc <- is_name st "INCLUDE";
      do path <- is_name st "INCLUDE_PATH";
      do rel <- is_name st "INCLUDE_PATH_RELATIVE";
      if (inc || path || rel) || (p_card st =? 0) then
        do ' (m, complete) <- parse_multi_line_string (p_multi st) card len;
        OK (with_multi st m, negb complete)
      else OK (st, false).

(** key.c:366-614, a card line. *)
Definition key_card (include : recursion -> cstr -> res (list item * recursion))
  (cfg : key_config) (w : world) (file : cstr) (line : extra_string) (len : nat) (st : parser)
  : res parser :=
  do card <- (if len <? ESB then OK (es_buffer line)
    else do b <- extra_string_copy_to_string (malloc (len + 1)) line len; aset b len NUL);
  do inc <- extra_string_starts_with (p_name st) (bs "INCLUDE");
  do ' (st, skip) <- (if inc then key_include_card include cfg w file card len st else OK (st, false));
  if skip then OK st else key_card_callback card st.

(** key.c:288-616, the body of the loop.  Result: the line memory (the parser
    overwrites the comment character), the state and whether to stop. *)
Definition key_line (include : recursion -> cstr -> res (list item * recursion))
  (cfg : key_config) (w : world) (file : cstr) (line : extra_string) (len : nat)
  (comment : option nat) (st : parser) : res (extra_string * parser * bool) :=
  let st := count_line st in
  match comment with
  | Some 0 => OK (line, st, false)
  | _ =>
    do line <- match comment with Some k => extra_string_set line k NUL | None => OK line end;
    do kw <- (if negb (len =? 0) then
        do i <- es_blanks (S (es_size line)) line 0;
        do c <- extra_string_get line i; OK (if (c =? STAR)%Z then Some i else None)
      else OK None);
    match kw with
    | Some i => do ' (st, stop) <- key_keyword line len i st; OK (line, st, stop)
    | None => do st <- key_card include cfg w file line len st; OK (line, st, false)
    end
  end.

Definition with_line (lr : line_reader) (l : extra_string) : line_reader :=
  {| lr_rest := lr_rest lr; lr_eof := lr_eof lr; lr_line := l; lr_len := lr_len lr;
     lr_comment := lr_comment lr; lr_chunk := lr_chunk lr; lr_index := lr_index lr |}.

(** key.c:286-618 [while (read_line(&line_reader)) ...] *)
Fixpoint key_lines (include : recursion -> cstr -> res (list item * recursion))
  (cfg : key_config) (w : world) (g : garbage) (file : cstr) (fuel : nat) (lr : line_reader)
  (st : parser) : res parser :=
  match fuel with
  | O => OOF
  | S f =>
    do ' (more, lr) <- read_line (g_N g) (g_fill g) lr;
    if more then
      do ' (line, st, stop) <- key_line include cfg w file (lr_line lr) (lr_len lr) (lr_comment lr) st;
      if stop then OK st else key_lines include cfg w g file f (with_line lr line) st
    else OK st
  end.

(** key.c:623-662: the callback for the last keyword. *)
Definition key_finish (st : parser) : res parser :=
  do last <- (if p_card st =? 0 then
      if negb (p_klen st =? 3) then OK true
      else do c <- extra_string_compare (p_name st) (bs "END"); OK (negb (c =? 0)%Z)
    else OK false);
  if last then
    do n <- callback_name st;
    do c <- match sb_buffer (p_multi st) with
            | Some m => do t <- cstring_at m; OK (Some t) | None => OK None end;
    OK (emit (with_multi st string_builder_new) [Ev (n, c, None)])
  else OK st.

(** key.c:235-284: include paths at the start of a (nested) parse. *)
Definition key_begin (cfg : key_config) (w : world) (r : recursion) : recursion :=
  let paths := match rc_paths r with [] => [w_cwd w] | p => p end in
  let paths := if rc_applied r then paths else paths ++ extra_include_paths cfg in
  {| rc_paths := paths; rc_root := rc_root r; rc_applied := true |}.

(** key.c:178-687 for a nested parse ([rec] is not NULL); fuel bounds the
    depth of nested includes. *)
Fixpoint key_parse_rec (cfg : key_config) (w : world) (g : garbage) (fuel : nat) (r : recursion)
  (file : cstr) : res (list item * recursion) :=
  match fuel with
  | O => OOF
  | S f =>
    match w_file w file with
    | None => OK ([OpenFailed], r)
    | Some content =>
      let st := {| p_name := {| es_buffer := NUL :: g_name g; es_extra := [] |}; p_klen := 0;
                   p_card := 0; p_count := 0; p_multi := string_builder_new;
                   p_rec := key_begin cfg w r; p_log := [] |} in
      do st <- key_lines (key_parse_rec cfg w g f) cfg w g file (length content + 2)
                 (new_line_reader content (g_line g) (g_index g)) st;
      do st <- key_finish st;
      OK (p_log st, p_rec st)
    end
  end.

(** key.c:217-232: the root folder. *)
Definition key_root (w : world) (file : cstr) : res cstr :=
  do up <- path_move_up file;
  match up with
  | None => OK (w_cwd w)
  | Some index =>
    do abs <- path_is_abs file;
    if abs then do b <- string_clone_len (file ++ [NUL]) (index + 1); cstring_at b
    else
      do j <- path_join (w_cwd w) file;
      do up <- path_move_up j;
      match up with
      | None => UB
      | Some k => do b <- aset (j ++ [NUL]) (k + 1) NUL; cstring_at b
      end
  end.

(** key.c:178-687 [key_file_parse_with_callback] called by the user
    ([rec] = NULL).  If the file cannot be opened the recursion data is not
    created. *)
Definition key_file_parse_with_callback (cfg : key_config) (w : world) (g : garbage) (fuel : nat)
  (file : cstr) : res (list item) :=
  match w_file w file with
  | None => OK [OpenFailed]
  | Some _ =>
    do root <- key_root w file;
    do ' (l, _) <- key_parse_rec cfg w g fuel {| rc_paths := []; rc_root := root; rc_applied := false |} file;
    OK l
  end.

(** The callbacks and the messages of a parse. *)
Definition events_of (l : list item) : list event :=
  concat (map (fun i => match i with Ev e => [e] | _ => [] end) l).
Definition is_error (i : item) : bool :=
  match i with NotFound _ => true | OpenFailed => true | _ => false end.

(** key.c:143-176 [key_file_parse]: the callback of the keyword table is run
    on the events; after any error there are no keywords. *)
Definition key_file_parse (cfg : key_config) (w : world) (g : garbage) (fuel : nat) (file : cstr)
  : res (list keyword) :=
  do l <- key_file_parse_with_callback cfg w g fuel file;
  do ks <- key_file_parse_events (events_of l);
  if existsb is_error l then OK [] else OK ks.
