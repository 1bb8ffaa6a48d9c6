(** * Model of src/binout.c (opening, simple queries) and of the typed read of
    src/binout_read.c *)
From Verif Require Import CBase PathModel BinDirModel.

(** ** Files *)

(** A file on disk as the library finds it: [fopen] fails with a reason, or
    the file has these bytes.  The files do not change while they are used. *)
Inductive disk := Unreadable (why : cstr) | Content (data : list Z).

(** [fread(dst, size, count)] at position [pos]: the bytes and the new
    position if [count] items are returned, [None] if fewer are.  An item size
    of 0 yields 0 items. *)
Definition fread (data : list Z) (pos size count : Z) : option (list Z * Z) :=
  let n := (size * count)%Z in
  if (count =? 0)%Z then Some ([], pos)
  else if (0 <? size)%Z && (pos + n <=? Z.of_nat (length data))%Z
  then Some (firstn (Z.to_nat n) (skipn (Z.to_nat pos) data), (pos + n)%Z)
  else None.

Definition s64 (z : Z) : Z := let u := (z mod 2 ^ 64)%Z in if (u <? 2 ^ 63)%Z then u else (u - 2 ^ 64)%Z.

(** [fseek]: positions behind the end are fine, negative ones and ones beyond
    [LONG_MAX] are errors. *)
Definition fseek_to (p : Z) : option Z := if (0 <=? p)%Z && (p <? 2 ^ 63)%Z then Some p else None.
Definition fseek_cur (pos off : Z) : option Z := fseek_to (pos + s64 off)%Z.

(** A field of at most 8 bytes read into a zeroed [uint64_t] (little endian
    machine). *)
Fixpoint le_value (b : list Z) : Z := match b with [] => 0%Z | x :: t => (x + 256 * le_value t)%Z end.

(** binout.h:34-44 *)
Record header := { h_length : Z; h_offset : Z; h_command : Z; h_typeid : Z; h_endianess : Z; h_float : Z }.
Definition header_of (b : list Z) : header :=
  {| h_length := nth 1 b 0%Z; h_offset := nth 2 b 0%Z; h_command := nth 3 b 0%Z; h_typeid := nth 4 b 0%Z;
     h_endianess := nth 5 b 0%Z; h_float := nth 6 b 0%Z |}.

(** ** CD records *)

(** binout.c:200-220: one element of a relative path.  [current_path_string]
    is the string up to its terminator; the assertions keep it inside the 1024
    bytes.  [path_move_up] = ~0 writes to [current_path_string[~0]]. *)
Definition cd_element (cur : cstr) (pv : path_view) : res cstr :=
  do c <- path_view_strcmp pv (bs "..");
  if (c =? 0)%Z then
    do index <- path_move_up cur;
    match index with
    | None => UB
    | Some index => OK (firstn (if index =? 0 then 1 else index) cur)
    end
  else
    do element <- path_view_stralloc pv;
    let len := length cur in
    if len + pv_len pv + 1 <? 1024 then
      do last <- cget cur (len - 1);
      OK ((if is_sep last then cur else cur ++ [SEP]) ++ element)
    else UB.

(** binout.c:199-225: the loop over the elements. *)
Fixpoint cd_relative (fuel : nat) (cur : cstr) (pv : path_view) : res cstr :=
  match fuel with
  | O => OOF
  | S f =>
    do cur <- cd_element cur pv;
    do '(pv, more) <- path_view_advance pv;
    if more then cd_relative f cur pv else OK cur
  end.

(** What a file changes while its records are executed: the directory, the
    current path and the current folder ([None] = NULL). *)
Record state := { s_dir : list entry; s_path : cstr; s_folder : option addr }.

(** binout.c:187-232: the CD command. *)
Definition cd (st : state) (path : cstr) : res state :=
  do abs <- path_is_abs path;
  if abs then
    do pv <- path_view_new path;
    do '(pv, more) <- path_view_advance pv;
    if more then
      do '(dir, folder) <- directory_insert_folder (s_dir st) pv;
      OK {| s_dir := dir; s_path := path; s_folder := folder |}
    else OK {| s_dir := s_dir st; s_path := path; s_folder := s_folder st |}
  else
    do pv <- path_view_new path;
    do cur <- cd_relative (S (length path)) (s_path st) pv;
    do pv <- path_view_new cur;
    do '(pv, _) <- path_view_advance pv;
    do '(dir, folder) <- directory_insert_folder (s_dir st) pv;
    OK {| s_dir := dir; s_path := cur; s_folder := folder |}.

(** ** The record loop *)
Definition msg_length := bs "Failed to read record length".
Definition msg_command := bs "Failed to read command".
Definition msg_path := bs "Failed to read PATH of CD record".
Definition msg_typeid := bs "Failed to read TYPEID of DATA record".
Definition msg_name_length := bs "Failed to read Name length of DATA record".
Definition msg_name := bs "Failed to read Name of DATA record".
Definition msg_skip_data := bs "Failed to skip Data of DATA record".
Definition msg_skip := bs "Failed to skip data of a record".

(** [break] with or without an error *)
Notation "'tryread' ( x , p ) <- a 'else' m ; b" :=
  (match a with Some (x, p) => b | None => OK (inr m) end)
  (at level 200, x name, p name, a at level 100, m at level 100, b at level 200).

(** binout.c:233-270: the DATA command, at position [pos] behind the command
    field. *)
Definition data_record (h : header) (file_index : Z) (data : list Z) (record_data_length pos : Z) (st : state)
  : res ((Z * state) + (state * option cstr)) :=
  match s_folder st with
  | None => UB
  | Some folder =>
    tryread (t, p1) <- fread data pos (h_typeid h) 1 else (st, Some msg_typeid);
    tryread (l, p2) <- fread data p1 1 1 else (st, Some msg_name_length);
    let name_length := le_value l in
    tryread (n, p3) <- fread data p2 1 name_length else (st, Some msg_name);
    do name <- cstring_at (n ++ [NUL]);
    let data_length := u64 (record_data_length - h_typeid h - 1 - name_length) in
    match fseek_cur p3 data_length with
    | None => OK (inr (st, Some msg_skip_data))
    | Some p4 =>
      do dir <- at_folder folder (s_dir st)
                  (fun cs => folder_insert_file cs name (u8 (le_value t)) data_length (u8 file_index) p3);
      OK (inl (p4, {| s_dir := dir; s_path := s_path st; s_folder := s_folder st |}))
    end
  end.

(** binout.c:160-281: one pass of the record loop.  [inl]: position and state
    for the next pass, [inr]: state and error message at the [break]. *)
Definition record_step (h : header) (file_index : Z) (data : list Z) (s : Z * state)
  : res ((Z * state) + (state * option cstr)) :=
  let '(pos, st) := s in
  if (pos =? Z.of_nat (length data))%Z then OK (inr (st, None))
  else
    tryread (l, p1) <- fread data pos (h_length h) 1 else (st, Some msg_length);
    tryread (c, p2) <- fread data p1 (h_command h) 1 else (st, Some msg_command);
    let record_data_length := u64 (le_value l - h_length h - h_command h) in
    if (le_value c =? 2)%Z then
      if negb (record_data_length <? 1024)%Z then UB
      else
        tryread (b, p3) <- fread data p2 1 record_data_length else (st, Some msg_path);
        do path <- cstring_at (b ++ [NUL]);
        do st <- cd st path;
        OK (inl (p3, st))
    else if (le_value c =? 3)%Z then data_record h file_index data record_data_length p2 st
    else
      match fseek_cur p2 record_data_length with
      | None => OK (inr (st, Some msg_skip))
      | Some p3 => OK (inl (p3, st))
      end.

(** binout.c:99-287: one file.  Result: the directory and the error
    of the file. *)
Definition parse_file (fuel : nat) (dir : list entry) (file_index : Z) (d : disk) : res (list entry * option cstr) :=
  match d with
  | Unreadable why => OK (dir, Some why)
  | Content data =>
    match fread data 0 8 1 with
    | None => OK (dir, Some (bs "Failed to read header"))
    | Some (b, pos) =>
      let h := header_of b in
      if negb (h_endianess h =? 1)%Z then OK (dir, Some (bs "Unsupported Endianess"))
      else if (8 <? h_length h)%Z then OK (dir, Some (bs "The record length field size is unsupported"))
      else if (8 <? h_command h)%Z then OK (dir, Some (bs "The command length field size is unsupported"))
      else if (8 <? h_typeid h)%Z then OK (dir, Some (bs "The typeid field size is unsupported"))
      else if negb (h_float h =? 0)%Z then OK (dir, Some (bs "The float format is unsupported"))
      else
        do '(st, err) <- loop fuel (record_step h file_index data) (pos, {| s_dir := dir; s_path := [SEP]; s_folder := None |});
        OK (s_dir st, err)
    end
  end.

(** binout.c:98-290: all files.  An entry of the files array is [None] once
    the file has been closed because of an error. *)
Fixpoint parse_files (fuel : nat) (dir : list entry) (file_index : Z) (files : list (cstr * disk))
  : res (list entry * list (option disk) * list cstr) :=
  match files with
  | [] => OK (dir, [], [])
  | (name, d) :: r =>
    do '(dir, err) <- parse_file fuel dir file_index d;
    do '(dir, handles, errs) <- parse_files fuel dir (file_index + 1)%Z r;
    OK (match err with
        | None => (dir, Some d :: handles, errs)
        | Some m => (dir, None :: handles, (name ++ bs ": " ++ m) :: errs)
        end)
  end.

(** binout.c:295-315: drop the closed files. *)
Fixpoint cleanup (fuel : nat) (files : list (option disk)) (cur : nat) : res (list (option disk)) :=
  match fuel with
  | O => OOF
  | S f =>
    if cur <? length files then
      do e <- aget files cur;
      match e with
      | None =>
        do last <- aget files (length files - 1);
        do files <- aset files cur last;
        cleanup f (firstn (length files - 1) files) cur
      | Some _ => cleanup f files (cur + 1)
      end
    else OK files
  end.

(** binout.c:826-849 [_binout_open_error]; [None] = NULL. *)
Fixpoint join_errors (errs : list cstr) : cstr :=
  match errs with
  | [] => []
  | [e] => e
  | e :: r => e ++ [LF] ++ join_errors r
  end.
Definition open_error (errs : list cstr) : option cstr := match errs with [] => None | _ => Some (join_errors errs) end.

Record binout := { b_dir : list entry; b_files : list (option disk); b_error : option cstr }.

(** binout.c:61-320 [binout_open]; [files]: what the glob of [pattern] yields. *)
Definition binout_open (fuel : nat) (pattern : cstr) (files : list (cstr * disk)) : res binout :=
  match files with
  | [] => OK {| b_dir := []; b_files := []; b_error := open_error [pattern ++ bs ": No files have been found"] |}
  | _ =>
    do '(dir, handles, errs) <- parse_files fuel [] 0 files;
    do handles <- cleanup (S (2 * length handles)) handles 0;
    OK {| b_dir := dir; b_files := handles; b_error := open_error errs |}
  end.

(** ** Queries *)

(** binout_defines.h:66-69 NEW_ERROR_STRING_F: [sprintf] into 1024 bytes. *)
Definition error_string (m : cstr) : res cstr := if length m <? 1024 then OK m else UB.

(** binout.c:348-364 [binout_get_type_id]: the type (255: invalid) and the error. *)
Definition get_type_id (b : binout) (path : cstr) : res (Z * option cstr) :=
  do pv <- path_view_new path;
  do file <- directory_get_file (b_dir b) pv;
  match file with
  | Some (File _ vt _ _ _) => OK (vt, None)
  | _ => do e <- error_string (bs """" ++ path ++ bs """ has not been found"); OK (255%Z, Some e)
  end.

(** binout.c:366-376 [binout_variable_exists] *)
Definition variable_exists (b : binout) (path : cstr) : res bool :=
  do pv <- path_view_new path;
  do file <- directory_get_file (b_dir b) pv;
  OK (match file with Some _ => true | None => false end).

(** binout.c:378-401 [binout_get_children]; [None]: NULL and ~0. *)
Definition binout_get_children (b : binout) (path : cstr) : res (option (list cstr)) :=
  do pv <- path_view_new path;
  do cs <- directory_get_children (b_dir b) pv;
  OK (option_map (map ename) cs).

(** binout.c:703-728 [_binout_get_type_size] *)
Definition type_size (t : Z) : Z :=
  if (t =? 1)%Z then 1 else if (t =? 2)%Z then 2 else if (t =? 3)%Z then 4 else if (t =? 4)%Z then 8
  else if (t =? 5)%Z then 1 else if (t =? 6)%Z then 2 else if (t =? 7)%Z then 4 else if (t =? 8)%Z then 8
  else if (t =? 9)%Z then 4 else if (t =? 10)%Z then 8 else 255.
(** binout.c:730-755 [_binout_get_type_name] *)
Definition type_name (t : Z) : cstr :=
  if (t =? 1)%Z then bs "INT8" else if (t =? 2)%Z then bs "INT16" else if (t =? 3)%Z then bs "INT32" else if (t =? 4)%Z then bs "INT64"
  else if (t =? 5)%Z then bs "UINT8" else if (t =? 6)%Z then bs "UINT16" else if (t =? 7)%Z then bs "UINT32" else if (t =? 8)%Z then bs "UINT64"
  else if (t =? 9)%Z then bs "FLOAT32" else if (t =? 10)%Z then bs "FLOAT64" else bs "UNKNOWN".

(** The effect of a typed read: NULL with an error, or the bytes of the array.
    [data_size] is what the caller finds in [*data_size]; [old] is what was in
    it before the call. *)
Record read_result := { r_data : option (list Z); r_size : Z; r_error : option cstr }.
Definition read_fails (old : Z) (m : cstr) : res read_result :=
  do e <- error_string m; OK {| r_data := None; r_size := old; r_error := Some e |}.

(** binout_read.c:37-93 [_binout_read]; the handle is returned on every path
    (see MultiFileModel for the handles). *)
Definition binout_read (b : binout) (old : Z) (path : cstr) (binout_type : Z) : res read_result :=
  do pv <- path_view_new path;
  do file <- directory_get_file (b_dir b) pv;
  match file with
  | None | Some (Folder _ _) => read_fails old (bs """" ++ path ++ bs """ has not been found")
  | Some (File _ vt size fi pos) =>
    if negb (vt =? binout_type)%Z then
      read_fails old (bs """" ++ path ++ bs """ is of type " ++ type_name vt ++ bs " instead of " ++ type_name binout_type)
    else if (size =? 0)%Z then read_fails old (bs "The file """ ++ path ++ bs """ is empty")
    else
      do f <- aget (b_files b) (Z.to_nat fi);
      match f with
      | None => UB
      | Some (Unreadable why) => read_fails old (bs "Failed to access file of """ ++ path ++ bs """: " ++ why)
      | Some (Content data) =>
        match fseek_to pos with
        | None => read_fails old (bs "Failed to seek to the position of """ ++ path ++ bs """")
        | Some p =>
          match fread data p size 1 with
          | None => read_fails old (bs "Failed to read """ ++ path ++ bs """")
          | Some (bytes, _) => OK {| r_data := Some bytes; r_size := (size / type_size binout_type)%Z; r_error := None |}
          end
        end
      end
  end.
