(** * Model of the time step functions of src/binout.c and src/binout_read.c *)
From Verif Require Import CBase PathModel BinDirModel BinModel.

Definition is_digit (c : Z) : bool := (48 <=? c)%Z && (c <=? 57)%Z.

(** binout.c:771-790 [_binout_is_d_string] *)
Definition is_d_string (name : cstr) : res bool :=
  do c0 <- cget name 0;
  if negb (c0 =? 100)%Z then OK false
  else
    do i <- scan (S (length name)) name is_digit 1;
    do c <- cget name i;
    if (c =? NUL)%Z then OK (negb (i =? 1)) else OK false.

(** binout.c:792-806 [_binout_is_metadata_string]: 9 characters including the
    terminator, starting with the [i]-th; [m]: the characters still to compare. *)
Fixpoint same_chars (m : list Z) (name : cstr) (i : nat) : res bool :=
  match m with
  | [] => OK true
  | x :: r => do c <- cget name i; if negb (c =? x)%Z then OK false else same_chars r name (i + 1)
  end.
Definition is_metadata_string (name : cstr) : res bool := same_chars (bs "metadata" ++ [NUL]) name 0.

(** [num_children] shares its memory with [size]; the children pointer of a
    variable is not initialised. *)
Definition num_children (e : entry) : Z :=
  match e with File _ _ size _ _ => size | Folder _ cs => Z.of_nat (length cs) end.
Definition child (e : entry) (i : nat) : res entry :=
  match e with File _ _ _ _ _ => UB | Folder _ cs => aget cs i end.
(** Searching the children of an entry with at least one child. *)
Definition search_in (e : entry) (pv : path_view) : res (option nat) :=
  match e with File _ _ _ _ _ => UB | Folder _ cs => search cs pv end.

(** [while (i < n && !_binout_is_d_string(cs[i].name)) i++] on the children
    from [i] on *)
Fixpoint first_d (cs : list entry) (i : nat) : res nat :=
  match cs with
  | [] => OK i
  | e :: r => do d <- is_d_string (ename e); if d then OK i else first_d r (i + 1)
  end.
(** [while (!_binout_is_d_string(cs[i].name)) i--]; below 0 the index wraps
    around and the access is out of bounds. *)
Fixpoint last_d (cs : list entry) (i : nat) : res nat :=
  do e <- aget cs i;
  do d <- is_d_string (ename e);
  if d then OK i else match i with O => UB | S i => last_d cs i end.

(** binout.c:422-465 [binout_get_num_timesteps]; [None] = ~0. *)
Definition num_timesteps (b : binout) (path : cstr) : res (option nat) :=
  do pv <- path_view_new path;
  do cs <- directory_get_children (b_dir b) pv;
  match cs with
  | None => OK None
  | Some [] => OK (Some 0)
  | Some (File _ _ _ _ _ :: _) => OK None
  | Some cs =>
    do start <- first_d cs 0;
    if start =? length cs then OK (Some 0)
    else
      do end_ <- last_d cs (length cs - 1);
      OK (Some (end_ - start + 1))
  end.

(** ** Simple paths *)

(** binout.c:519-535: the last child named "metadata", from index [i] down. *)
Fixpoint last_metadata (cs : list entry) (i : nat) : res (option entry) :=
  do e <- aget cs i;
  do m <- is_metadata_string (ename e);
  if m then OK (Some e) else match i with O => OK None | S i => last_metadata cs i end.
(** binout.c:572-584, binout_read.c:150-162: the first child with a d-name. *)
Fixpoint first_d_entry (cs : list entry) : res (option entry) :=
  match cs with
  | [] => OK None
  | e :: r => do d <- is_d_string (ename e); if d then OK (Some e) else first_d_entry r
  end.

(** Searching an optional entry: [None] if there is none, it has no children
    or the element is not found. *)
Definition search_opt (e : option entry) (pv : path_view) : res (option entry) :=
  match e with
  | None => OK None
  | Some e =>
    if (num_children e =? 0)%Z then OK None
    else
      do i <- search_in e pv;
      match i with
      | None => OK None
      | Some i => do c <- child e i; OK (Some c)
      end
  end.

(** [None] = NULL; real path, [*type_id], [*timed]. *)
Definition simple_result := option (cstr * Z * bool).

(** binout.c:509-672: the loop, from its condition on.  [real]: the path so
    far, [cs]: the children of [folder]. *)
Fixpoint simple_loop (fuel : nat) (cs : list entry) (real : cstr) (timed : bool) (pv : path_view) : res simple_result :=
  match fuel with
  | O => OOF
  | S f =>
    do '(pv, more) <- path_view_advance pv;
    if negb more then OK (Some (real, 255%Z, timed))
    else match cs with
    | [] => OK None
    | _ =>
      (* the variable or folder [e] has been found; [prefix]: what is between
         the current real path and its name *)
      let enter (e : entry) (prefix : cstr) (timed : bool) : res simple_result :=
        let real := real ++ prefix ++ [SEP] ++ ename e in
        match e with
        | File _ vt _ _ _ =>
          do '(_, more) <- path_view_advance pv;
          if more then OK None else OK (Some (real, vt, timed))
        | Folder _ sub => simple_loop f sub real timed pv
        end in
      do i <- search cs pv;
      match i with
      | Some i => do e <- aget cs i; enter e [] timed
      | None =>
        do metadata <- last_metadata cs (length cs - 1);
        do e <- search_opt metadata pv;
        match e with
        | Some e => enter e ([SEP] ++ bs "metadata") timed
        | None =>
          do d_folder <- first_d_entry cs;
          do e <- search_opt d_folder pv;
          match e with
          | Some e => enter e [] true
          | None => OK None
          end
        end
      end
    end
  end.

(** binout.c:467-508 [binout_simple_path_to_real]: the root. *)
Definition simple_path_to_real (b : binout) (simple : cstr) : res simple_result :=
  do pv <- path_view_new simple;
  do abs <- path_is_abs simple;
  do '(pv, more) <- (if abs then path_view_advance pv else OK (pv, true));
  if negb more then OK (Some ([SEP], 255%Z, false))
  else match b_dir b with
  | [] => OK None
  | cs =>
    do i <- search cs pv;
    match i with
    | None => OK None
    | Some i =>
      do e <- aget cs i;
      match e with
      | File _ _ _ _ _ =>
        do '(_, more) <- path_view_advance pv;
        OK (if more then None else Some ([SEP] ++ ename e, 255%Z, false))
      | Folder _ sub => simple_loop (S (length simple)) sub ([SEP] ++ ename e) false pv
      end
    end
  end.

(** ** Timed reads *)

(** binout_read.c:164-197: the search inside of the first d-folder.  The list
    of indices is the [timed_path]. *)
Fixpoint search_d (fuel : nat) (cur : entry) (pv : path_view) : res (option (list nat)) :=
  match fuel with
  | O => OOF
  | S f =>
    if (num_children cur =? 0)%Z then OK None
    else
      do i <- search_in cur pv;
      match i with
      | Some i =>
        do c <- child cur i;
        match c with
        | File _ _ _ _ _ =>
          do '(_, more) <- path_view_advance pv;
          OK (if more then None else Some [i])
        | Folder _ _ =>
          do '(pv, more) <- path_view_advance pv;
          if negb more then OK None
          else do r <- search_d f c pv; OK (option_map (cons i) r)
        end
      | None =>
        do '(pv, more) <- path_view_advance pv;
        if negb more then OK None else search_d f cur pv
      end
  end.

(** binout_read.c:139-217: the loop of [_binout_search_timed] on the children
    of [folder]; the children of the returned folder and the timed path, or the
    error message. *)
Definition no_variable (variable : cstr) : cstr := bs "The variable """ ++ variable ++ bs """ does not exist".
Fixpoint search_timed_loop (fuel : nat) (variable : cstr) (cs : list entry) (pv : path_view) : res (cstr + list entry * list nat) :=
  match fuel with
  | O => OOF
  | S f =>
    do '(pv, more) <- path_view_advance pv;
    if negb more then OK (inl (bs "The variable """ ++ variable ++ bs """ is either metadata (not timed) or does not exist"))
    else match cs with
    | [] => OK (inl (no_variable variable))
    | _ =>
      do i <- search cs pv;
      match i with
      | None =>
        do d_folder <- first_d_entry cs;
        match d_folder with
        | None => OK (inl (no_variable variable))
        | Some d =>
          do tp <- search_d (S (length variable)) d pv;
          match tp with
          | None => OK (inl (no_variable variable))
          | Some tp => OK (inr (cs, tp))
          end
        end
      | Some i =>
        do e <- aget cs i;
        match e with
        | File _ _ _ _ _ =>
          do '(_, more) <- path_view_advance pv;
          OK (inl (if more then no_variable variable else bs "The variable """ ++ variable ++ bs """ is not timed"))
        | Folder _ sub => search_timed_loop f variable sub pv
        end
      end
    end
  end.

(** binout_read.c:109-138 *)
Definition search_timed (b : binout) (variable : cstr) : res (cstr + list entry * list nat) :=
  match b_dir b with
  | [] => OK (inl (bs "The binout directory is empty"))
  | cs =>
    do pv <- path_view_new variable;
    do '(pv, more) <- path_view_advance pv;
    if negb more then OK (inl (bs "The path """ ++ variable ++ bs """ is too short"))
    else
      do i <- search cs pv;
      match i with
      | None => OK (inl (no_variable variable))
      | Some i =>
        do e <- aget cs i;
        match e with
        | File _ _ _ _ _ => OK (inl (no_variable variable))
        | Folder _ sub => search_timed_loop (S (length variable)) variable sub pv
        end
      end
  end.

(** binout_read.c:219-271 [_binout_open_timed_path] *)
Fixpoint open_timed_path (cur : entry) (tp : list nat) (name : option cstr) : res (option entry) :=
  match tp with
  | [] => OK None
  | i :: r =>
    if (num_children cur <? Z.of_nat i + 1)%Z then OK None
    else
      do c <- child cur i;
      match c with
      | File n _ _ _ _ =>
        match r with
        | _ :: _ => OK None
        | [] =>
          match name with
          | Some v =>
            if negb (strcmp n v =? 0)%Z then
              do pv <- path_view_new v;
              do k <- search_in cur pv;
              match k with
              | None => OK None
              | Some k => do c <- child cur k; OK (Some c)
              end
            else OK (Some c)
          | None => OK (Some c)
          end
        end
      | Folder _ _ => match r with [] => OK None | _ => open_timed_path c r name end
      end
  end.

(** The caller's view: the array (or NULL), the two counts as far as they have
    been set, and the error. *)
Record timed_result := { t_data : option (list Z); t_values : Z; t_steps : Z; t_error : option cstr }.
Definition timed_fails (values steps : Z) (m : cstr) : res timed_result :=
  do e <- error_string m; OK {| t_data := None; t_values := values; t_steps := steps; t_error := Some e |}.

(** binout_read.c:318-368: the loop over the time steps.  [ds]: the remaining
    steps, [k]: the number of the current one, [data]: the array so far.
    The file index of a folder (found by name) is not initialised: [UB]. *)
Fixpoint decimal (digits : nat) (z : Z) (acc : cstr) : cstr :=
  match digits with
  | O => acc
  | S n => let acc := (48 + z mod 10)%Z :: acc in if (z <? 10)%Z then acc else decimal n (z / 10)%Z acc
  end.
(* "%zu": a size_t has at most 20 digits *)
Definition nat_string (k : nat) : cstr := decimal 20 (Z.of_nat k) [].
Fixpoint read_steps (b : binout) (variable : cstr) (values steps : Z) (tp : list nat) (name : cstr) (ds : list entry) (k : nat) (data : list Z)
  : res timed_result :=
  match ds with
  | [] => OK {| t_data := Some data; t_values := values; t_steps := steps; t_error := None |}
  | d :: r =>
    do f <- open_timed_path d tp (Some name);
    match f with
    | None => timed_fails values steps
        (bs "The structure of variable """ ++ variable ++ bs """ is invalid. Time Step " ++ nat_string k ++ bs " differs from the first time step")
    | Some (Folder _ _) => UB
    | Some (File _ _ size fi pos) =>
      do h <- aget (b_files b) (Z.to_nat fi);
      match h with
      | None => UB
      | Some (Unreadable why) => timed_fails values steps (bs "Failed to access the file of """ ++ variable ++ bs """: " ++ why)
      | Some (Content bytes) =>
        match fseek_to pos with
        | None => timed_fails values steps (bs "Failed to seek to the data of """ ++ variable ++ bs """")
        | Some p =>
          (* bytes behind the end of a too short file are not written *)
          let row := firstn (Z.to_nat size) (skipn (Z.to_nat p) bytes) in
          do data <- memcpy data (k * Z.to_nat size) row 0 (length row);
          match fread bytes p size 1 with
          | None => timed_fails values steps (bs "Failed to read time step " ++ nat_string k ++ bs " of """ ++ variable ++ bs """")
          | Some _ => read_steps b variable values steps tp name r (k + 1) data
          end
        end
      end
    end
  end.

(** binout_read.c:273-372 [_binout_read_timed]; [values], [steps]: what the
    caller had in his counts.  A multiplication that wraps around allocates a
    smaller array. *)
Definition read_timed (b : binout) (variable : cstr) (values steps : Z) (binout_type : Z) : res timed_result :=
  do s <- search_timed b variable;
  match s with
  | inl m => timed_fails values steps m
  | inr (cs, tp) =>
    do start <- first_d cs 0;
    do end_ <- last_d cs (length cs - 1);
    do first <- aget cs start;
    do df <- open_timed_path first tp None;
    match df with
    | None | Some (Folder _ _) => UB
    | Some (File name _ size _ _) =>
      let n := end_ - start + 1 in
      let values := (size / type_size binout_type)%Z in
      if (values =? 0)%Z then timed_fails values (Z.of_nat n) (bs "The files of """ ++ variable ++ bs """ are empty")
      else
        let data := malloc (Z.to_nat (u64 (size * Z.of_nat n))) in
        read_steps b variable values (Z.of_nat n) tp name (firstn n (skipn start cs)) 0 data
    end
  end.
