(** * Model of the memory of the binout readers: /repo/src/binout.c 348-420,
    467-672, binout_read.c, binout_defines.h 61-75

    The readers of BinModel.v and TimedModel.v again, with their calls of malloc,
    realloc and free.  Memory is that of CppArrayModel.v; [malloc] never fails and also
    makes a block of 0 bytes, [realloc] always moves.  What the blocks contain is not
    modelled but for their sizes: the values are carried beside the pointers.  [e] is
    the handle's error_string.  The directory tree and the files of the handle do not
    change after binout_open and are not part of this memory. *)
From Verif Require Import CBase PathModel BinDirModel BinModel TimedModel CppArrayModel OwnModel ReadMemModel.
Open Scope nat_scope.

(** string_builder.c:107-119 string_clone *)
Definition string_clone_mem (h : heap) (s : cstr) : heap * ptr := h_malloc h (malloc (length s + 1)).

(** binout_defines.h:61-69 NEW_ERROR_STRING, NEW_ERROR_STRING_F *)
Definition new_error (h : heap) (e : option ptr) (m : cstr) : res (heap * option ptr) :=
  do m <- error_string m;
  do h <- h_free_opt h e;
  let '(h, p) := string_clone_mem h m in OK (h, Some p).

(** binout_defines.h:71-73 BINOUT_CLEAR_ERROR_STRING *)
Definition clear_error (h : heap) (e : option ptr) : res (heap * option ptr) := do h <- h_free_opt h e; OK (h, None).

(** binout.c:348-364 *)
Definition get_type_id_mem (h : heap) (e : option ptr) (b : binout) (path : cstr) : res (heap * option ptr * (Z * option cstr)) :=
  do ' (h, e) <- clear_error h e;
  do pv <- path_view_new path;
  do file <- directory_get_file (b_dir b) pv;
  match file with
  | Some (File _ vt _ _ _) => OK (h, e, (vt, None))
  | _ =>
    let m := bs """" ++ path ++ bs """ has not been found" in
    do ' (h, e) <- new_error h e m; OK (h, e, (255%Z, Some m))
  end.

(** binout.c:378-401: the array; the names in it are those of the directory tree. *)
Definition get_children_mem (h : heap) (b : binout) (path : cstr) : res (heap * option (list cstr) * option ptr) :=
  do pv <- path_view_new path;
  do cs <- directory_get_children (b_dir b) pv;
  match cs with
  | None => OK (h, None, None)
  | Some cs => let '(h, children) := h_malloc h (malloc (length cs)) in OK (h, Some (map ename cs), Some children)
  end.

(** binout.c:411-420: a copy of the error string. *)
Definition open_error_mem (h : heap) (error : option cstr) : heap * option ptr :=
  match error with
  | None => (h, None)
  | Some m => let '(h, p) := string_clone_mem h m in (h, Some p)
  end.

(** binout_read.c:37-93 *)
Definition read_fails_mem (h : heap) (e : option ptr) (old : Z) (m : cstr) : res (heap * option ptr * read_result * option ptr) :=
  do ' (h, e) <- new_error h e m; OK (h, e, {| r_data := None; r_size := old; r_error := Some m |}, None).
Definition binout_read_mem (h : heap) (e : option ptr) (b : binout) (old : Z) (path : cstr) (binout_type : Z)
  : res (heap * option ptr * read_result * option ptr) :=
  do ' (h, e) <- clear_error h e;
  do pv <- path_view_new path;
  do file <- directory_get_file (b_dir b) pv;
  match file with
  | None | Some (Folder _ _) => read_fails_mem h e old (bs """" ++ path ++ bs """ has not been found")
  | Some (File _ vt size fi pos) =>
    if negb (vt =? binout_type)%Z then
      read_fails_mem h e old (bs """" ++ path ++ bs """ is of type " ++ type_name vt ++ bs " instead of " ++ type_name binout_type)
    else if (size =? 0)%Z then read_fails_mem h e old (bs "The file """ ++ path ++ bs """ is empty")
    else
      do f <- aget (b_files b) (Z.to_nat fi);
      match f with
      | None => UB
      | Some (Unreadable why) => read_fails_mem h e old (bs "Failed to access file of """ ++ path ++ bs """: " ++ why)
      | Some (Content bytes) =>
        match fseek_to pos with
        | None => read_fails_mem h e old (bs "Failed to seek to the position of """ ++ path ++ bs """")
        | Some p =>
          let '(h, data) := h_malloc h (malloc (Z.to_nat size)) in
          match fread bytes p size 1 with
          | None => do h <- h_free h data; read_fails_mem h e old (bs "Failed to read """ ++ path ++ bs """")
          | Some (values, _) => OK (h, e, {| r_data := Some values; r_size := (size / type_size binout_type)%Z; r_error := None |}, Some data)
          end
        end
      end
  end.

(** ** Timed reads *)
(** binout_read.c:102-107 timed_path_free: the children in [tp], the last one first. *)
Fixpoint timed_path_free (h : heap) (tp : list ptr) : res heap :=
  match tp with [] => OK h | child :: r => do h <- timed_path_free h r; h_free h child end.

(** binout_read.c:164-197: for every folder found a child is appended to the timed
    path, before it is known whether anything is found in it. *)
Fixpoint search_d_mem (fuel : nat) (h : heap) (cur : entry) (pv : path_view) : res (heap * list ptr * option (list nat)) :=
  match fuel with
  | O => OOF
  | S f =>
    if (num_children cur =? 0)%Z then OK (h, [], None)
    else
      do i <- search_in cur pv;
      match i with
      | Some i =>
        do c <- child cur i;
        match c with
        | File _ _ _ _ _ => do '(_, more) <- path_view_advance pv; OK (h, [], if more then None else Some [i])
        | Folder _ _ =>
          let '(h, node) := h_malloc h (malloc 2) in
          do '(pv, more) <- path_view_advance pv;
          if negb more then OK (h, [node], None)
          else do ' (h, tp, r) <- search_d_mem f h c pv; OK (h, node :: tp, option_map (cons i) r)
        end
      | None =>
        do '(pv, more) <- path_view_advance pv;
        if negb more then OK (h, [], None) else search_d_mem f h cur pv
      end
  end.

(** The error of a search: NULL is returned and the error string is new. *)
Definition search_fails (h : heap) (e : option ptr) (tp : list ptr) (m : cstr) : res (heap * option ptr * list ptr * (cstr + list entry * list nat)) :=
  do ' (h, e) <- new_error h e m; OK (h, e, tp, inl m).

(** binout_read.c:139-217 *)
Fixpoint search_timed_loop_mem (fuel : nat) (h : heap) (e : option ptr) (variable : cstr) (cs : list entry) (pv : path_view)
  : res (heap * option ptr * list ptr * (cstr + list entry * list nat)) :=
  match fuel with
  | O => OOF
  | S f =>
    do '(pv, more) <- path_view_advance pv;
    if negb more then search_fails h e [] (bs "The variable """ ++ variable ++ bs """ is either metadata (not timed) or does not exist")
    else match cs with
    | [] => search_fails h e [] (no_variable variable)
    | _ =>
      do i <- search cs pv;
      match i with
      | None =>
        do d_folder <- first_d_entry cs;
        match d_folder with
        | None => search_fails h e [] (no_variable variable)
        | Some d =>
          do ' (h, nodes, tp) <- search_d_mem (S (length variable)) h d pv;
          match tp with
          | None => search_fails h e nodes (no_variable variable)
          | Some tp => OK (h, e, nodes, inr (cs, tp))
          end
        end
      | Some i =>
        do en <- aget cs i;
        match en with
        | File _ _ _ _ _ =>
          do '(_, more) <- path_view_advance pv;
          search_fails h e [] (if more then no_variable variable else bs "The variable """ ++ variable ++ bs """ is not timed")
        | Folder _ sub => search_timed_loop_mem f h e variable sub pv
        end
      end
    end
  end.
(** binout_read.c:109-138 *)
Definition search_timed_mem (h : heap) (e : option ptr) (b : binout) (variable : cstr)
  : res (heap * option ptr * list ptr * (cstr + list entry * list nat)) :=
  do ' (h, e) <- clear_error h e;
  match b_dir b with
  | [] => search_fails h e [] (bs "The binout directory is empty")
  | cs =>
    do pv <- path_view_new variable;
    do '(pv, more) <- path_view_advance pv;
    if negb more then search_fails h e [] (bs "The path """ ++ variable ++ bs """ is too short")
    else
      do i <- search cs pv;
      match i with
      | None => search_fails h e [] (no_variable variable)
      | Some i =>
        do en <- aget cs i;
        match en with
        | File _ _ _ _ _ => search_fails h e [] (no_variable variable)
        | Folder _ sub => search_timed_loop_mem (S (length variable)) h e variable sub pv
        end
      end
  end.

(** binout_read.c:325-367: an error in the loop frees the array and the timed path. *)
Definition timed_fails_mem (h : heap) (e : option ptr) (values steps : Z) (m : cstr) : res (heap * option ptr * timed_result * option ptr) :=
  do ' (h, e) <- new_error h e m; OK (h, e, {| t_data := None; t_values := values; t_steps := steps; t_error := Some m |}, None).
Definition step_fails_mem (h : heap) (e : option ptr) (nodes : list ptr) (data : ptr) (values steps : Z) (m : cstr) :=
  do h <- h_free h data; do h <- timed_path_free h nodes; timed_fails_mem h e values steps m.
Fixpoint read_steps_mem (h : heap) (e : option ptr) (nodes : list ptr) (p : ptr) (b : binout) (variable : cstr) (values steps : Z)
    (tp : list nat) (name : cstr) (ds : list entry) (k : nat) (data : list Z) : res (heap * option ptr * timed_result * option ptr) :=
  match ds with
  | [] => do h <- timed_path_free h nodes; OK (h, e, {| t_data := Some data; t_values := values; t_steps := steps; t_error := None |}, Some p)
  | d :: r =>
    do f <- open_timed_path d tp (Some name);
    match f with
    | None => step_fails_mem h e nodes p values steps
        (bs "The structure of variable """ ++ variable ++ bs """ is invalid. Time Step " ++ nat_string k ++ bs " differs from the first time step")
    | Some (Folder _ _) => UB
    | Some (File _ _ size fi pos) =>
      do file <- aget (b_files b) (Z.to_nat fi);
      match file with
      | None => UB
      | Some (Unreadable why) => step_fails_mem h e nodes p values steps (bs "Failed to access the file of """ ++ variable ++ bs """: " ++ why)
      | Some (Content bytes) =>
        match fseek_to pos with
        | None => step_fails_mem h e nodes p values steps (bs "Failed to seek to the data of """ ++ variable ++ bs """")
        | Some q =>
          let row := firstn (Z.to_nat size) (skipn (Z.to_nat q) bytes) in
          do data <- memcpy data (k * Z.to_nat size) row 0 (length row);
          match fread bytes q size 1 with
          | None => step_fails_mem h e nodes p values steps (bs "Failed to read time step " ++ nat_string k ++ bs " of """ ++ variable ++ bs """")
          | Some _ => read_steps_mem h e nodes p b variable values steps tp name r (k + 1) data
          end
        end
      end
    end
  end.
(** binout_read.c:273-372 *)
Definition read_timed_mem (h : heap) (e : option ptr) (b : binout) (variable : cstr) (values steps : Z) (binout_type : Z)
  : res (heap * option ptr * timed_result * option ptr) :=
  do ' (h, e, nodes, s) <- search_timed_mem h e b variable;
  match s with
  | inl m => do h <- timed_path_free h nodes; OK (h, e, {| t_data := None; t_values := values; t_steps := steps; t_error := Some m |}, None)
  | inr (cs, tp) =>
    do start <- first_d cs 0;
    do end_ <- last_d cs (length cs - 1);
    do first <- aget cs start;
    do df <- open_timed_path first tp None;
    match df with
    | None | Some (Folder _ _) => UB
    | Some (File name _ size _ _) =>
      let n := end_ - start + 1 in
      let values := (size / type_size binout_type)%Z in
      if (values =? 0)%Z then
        do h <- timed_path_free h nodes; timed_fails_mem h e values (Z.of_nat n) (bs "The files of """ ++ variable ++ bs """ are empty")
      else
        let data := malloc (Z.to_nat (u64 (size * Z.of_nat n))) in
        let '(h, p) := h_malloc h data in
        read_steps_mem h e nodes p b variable values (Z.of_nat n) tp name (firstn n (skipn start cs)) 0 data
    end
  end.

(** ** The real path *)
(** string_builder.c:39-66: the string [s] in the buffer becomes [s ++ t]. *)
Definition append_mem (h : heap) (p : option ptr) (s t : cstr) : res (heap * option ptr) :=
  do ' (h, q) <- h_realloc h p (Z.of_nat (length s + length t + 1)); OK (h, Some q).
(** Several in turn. *)
Fixpoint appends_mem (h : heap) (p : option ptr) (s : cstr) (ts : list cstr) : res (heap * option ptr) :=
  match ts with [] => OK (h, p) | t :: r => do ' (h, p) <- append_mem h p s t; appends_mem h p (s ++ t) r end.
(** string_builder.c:97-105 string_builder_free, and NULL. *)
Definition no_path (h : heap) (p : option ptr) : res (heap * simple_result * option ptr) := do h <- h_free_opt h p; OK (h, None, None).

(** binout.c:509-672 *)
Fixpoint simple_loop_mem (fuel : nat) (h : heap) (p : option ptr) (cs : list entry) (real : cstr) (timed : bool) (pv : path_view)
  : res (heap * simple_result * option ptr) :=
  match fuel with
  | O => OOF
  | S f =>
    do '(pv, more) <- path_view_advance pv;
    if negb more then OK (h, Some (real, 255%Z, timed), p)
    else match cs with
    | [] => no_path h p
    | _ =>
      let enter (e : entry) (prefix : list cstr) (timed : bool) : res (heap * simple_result * option ptr) :=
        let ts := prefix ++ [[SEP]; ename e] in
        match e with
        | File _ vt _ _ _ =>
          do '(_, more) <- path_view_advance pv;
          if more then no_path h p
          else do ' (h, p) <- appends_mem h p real ts; OK (h, Some (real ++ concat ts, vt, timed), p)
        | Folder _ sub => do ' (h, p) <- appends_mem h p real ts; simple_loop_mem f h p sub (real ++ concat ts) timed pv
        end in
      do i <- search cs pv;
      match i with
      | Some i => do e <- aget cs i; enter e [] timed
      | None =>
        do metadata <- last_metadata cs (length cs - 1);
        do e <- search_opt metadata pv;
        match e with
        | Some e => enter e [[SEP]; bs "metadata"] timed
        | None =>
          do d_folder <- first_d_entry cs;
          do e <- search_opt d_folder pv;
          match e with
          | Some e => enter e [] true
          | None => no_path h p
          end
        end
      end
    end
  end.
(** binout.c:467-508 *)
Definition simple_path_to_real_mem (h : heap) (b : binout) (simple : cstr) : res (heap * simple_result * option ptr) :=
  do pv <- path_view_new simple;
  do ' (h, p) <- append_mem h None [] [SEP];
  do abs <- path_is_abs simple;
  do '(pv, more) <- (if abs then path_view_advance pv else OK (pv, true));
  if negb more then OK (h, Some ([SEP], 255%Z, false), p)
  else match b_dir b with
  | [] => no_path h p
  | cs =>
    do i <- search cs pv;
    match i with
    | None => no_path h p
    | Some i =>
      do e <- aget cs i;
      match e with
      | File _ _ _ _ _ =>
        do '(_, more) <- path_view_advance pv;
        if more then no_path h p
        else do ' (h, p) <- append_mem h p [SEP] (ename e); OK (h, Some ([SEP] ++ ename e, 255%Z, false), p)
      | Folder _ sub =>
        do ' (h, p) <- append_mem h p [SEP] (ename e);
        simple_loop_mem (S (length simple)) h p sub ([SEP] ++ ename e) false pv
      end
    end
  end.

(** ** A client *)
(** Its calls; it may free every array and string it was given, once.  [r_data],
    [t_data], ... are not looked at again.  The value that was in a count before is 0. *)
Inductive bin_call :=
  | BTypeId (path : cstr)
  | BChildren (path : cstr)
  | BRead (path : cstr) (binout_type : Z)
  | BReadTimed (path : cstr) (binout_type : Z)
  | BReal (path : cstr)
  | BOpenError
  | BFree (k : nat).  (* the result of the call number [k]; a free does not count *)
(** The heap, the error string and its pointer, the results. *)
Record bin_client := { bc_heap : heap; bc_error : option cstr; bc_ptr : option ptr; bc_results : list (option ptr) }.
Definition bin_step (b : binout) (c : bin_client) (k : bin_call) : res bin_client :=
  let h := bc_heap c in let e := bc_ptr c in
  match k with
  | BTypeId path => do ' (h, e, (_, m)) <- get_type_id_mem h e b path; OK {| bc_heap := h; bc_error := m; bc_ptr := e; bc_results := bc_results c ++ [None] |}
  | BChildren path => do ' (h, _, p) <- get_children_mem h b path; OK {| bc_heap := h; bc_error := bc_error c; bc_ptr := e; bc_results := bc_results c ++ [p] |}
  | BRead path t => do ' (h, e, r, p) <- binout_read_mem h e b 0 path t; OK {| bc_heap := h; bc_error := r_error r; bc_ptr := e; bc_results := bc_results c ++ [p] |}
  | BReadTimed path t => do ' (h, e, r, p) <- read_timed_mem h e b path 0 0 t; OK {| bc_heap := h; bc_error := t_error r; bc_ptr := e; bc_results := bc_results c ++ [p] |}
  | BReal path => do ' (h, _, p) <- simple_path_to_real_mem h b path; OK {| bc_heap := h; bc_error := bc_error c; bc_ptr := e; bc_results := bc_results c ++ [p] |}
  | BOpenError => let '(h, p) := open_error_mem h (bc_error c) in OK {| bc_heap := h; bc_error := bc_error c; bc_ptr := e; bc_results := bc_results c ++ [p] |}
  | BFree n =>
    do p <- aget (bc_results c) n; do h <- h_free_opt h p; do l <- aset (bc_results c) n None;
    OK {| bc_heap := h; bc_error := bc_error c; bc_ptr := e; bc_results := l |}
  end.
Fixpoint bin_run (b : binout) (c : bin_client) (ks : list bin_call) : res bin_client :=
  match ks with [] => OK c | k :: r => do c <- bin_step b c k; bin_run b c r end.
