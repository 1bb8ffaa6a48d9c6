(** * Model of src/binout_directory.c *)
From Verif Require Import CBase SearchModel PathModel KeyTableModel.

(** binout_directory.h:39-52 [binout_entry_t]; the [type] tag is the
    constructor.  Fields of a file: name, var_type, size, file_index,
    file_pos. *)
Inductive entry :=
| File (name : cstr) (var_type size file_index file_pos : Z)
| Folder (name : cstr) (children : list entry).

Definition ename (e : entry) : cstr := match e with File n _ _ _ _ => n | Folder n _ => n end.
Definition is_folder (e : entry) : bool := match e with Folder _ _ => true | File _ _ _ _ _ => false end.

(** [&children[i]]... : a pointer to an entry is the list of the indices that
    lead to it from the root. *)
Definition addr := list nat.

(** binout_directory.c:44-57, 97-110, 157-165: the search in a children array
    (skipped for an empty one); (index, found). *)
Definition find_slot (cs : list entry) (name : cstr) : res (nat * bool) :=
  match cs with
  | [] => OK (0, false)
  | _ => entry_binary_search_insert (map ename cs) 0 (length cs - 1) name
  end.

(** binout_directory.c:60-70, 113-123, 169-180: realloc, move everything from
    [index] on to the right, write the new entry to [index]. *)
Definition insert_entry (cs : list entry) (index : nat) (e : entry) : res (list entry) :=
  let junk := Folder [] [] in
  do arr <- shift_right (length cs - index) (cs ++ [junk]) (length cs);
  aset arr index e.

(** binout_directory.c:35-90 [binout_directory_insert_folder] without its
    assertion and 92-142 [binout_folder_insert_folder]: the same statements on
    the children array of the directory and of a folder.  Result: the array
    and the returned pointer ([None] = NULL). *)
Fixpoint folder_insert_folder (fuel : nat) (cs : list entry) (pv : path_view) : res (list entry * option addr) :=
  match fuel with
  | O => OOF
  | S f =>
    do name <- path_view_stralloc pv;
    do '(index, found) <- find_slot cs name;
    do '(cs, isf) <-
      (if found then do e <- aget cs index; OK (cs, is_folder e)
       else do cs <- insert_entry cs index (Folder name []); OK (cs, true));
    if negb isf then OK (cs, None)
    else
      do '(pv, more) <- path_view_advance pv;
      if negb more then OK (cs, Some [index])
      else
        do e <- aget cs index;
        match e with
        | Folder n sub =>
          do '(sub, r) <- folder_insert_folder f sub pv;
          do cs <- aset cs index (Folder n sub);
          OK (cs, option_map (cons index) r)
        | File _ _ _ _ _ => UB
        end
  end.

(** binout_directory.c:35-41: the assertion, then as above. *)
Definition directory_insert_folder (dir : list entry) (pv : path_view) : res (list entry * option addr) :=
  do abs <- path_is_abs (pv_string pv);
  if abs && (pv_start pv =? 1) then folder_insert_folder (S (length (pv_string pv))) dir pv else UB.

(** binout_directory.c:144-192 [binout_folder_insert_file] on the children
    array.  If a folder of this name exists its name is freed and stays in the
    table as a dangling pointer: [UB]. *)
Definition folder_insert_file (cs : list entry) (name : cstr) (var_type size file_index file_pos : Z)
  : res (list entry) :=
  let file := File name var_type size file_index file_pos in
  do '(index, found) <- find_slot cs name;
  if found then
    do e <- aget cs index;
    if is_folder e then UB else aset cs index file
  else insert_entry cs index file.

(** Dereferencing a folder pointer and changing its children. *)
Fixpoint at_folder (a : addr) (cs : list entry) (f : list entry -> res (list entry)) : res (list entry) :=
  match a with
  | [] => f cs
  | i :: r =>
    do e <- aget cs i;
    match e with
    | Folder n sub => do sub <- at_folder r sub f; aset cs i (Folder n sub)
    | File _ _ _ _ _ => UB
    end
  end.

(** Lookup in a children array, binary_search.c:36-75 with the current
    element of the path. *)
Definition search (cs : list entry) (pv : path_view) : res (option nat) :=
  entry_binary_search (map ename cs) 0 (length cs - 1) pv.

(** binout_directory.c:241-278 [binout_folder_get_children]; [None]: NULL and
    ~0; [Some l]: the children and their number. *)
Fixpoint folder_get_children (fuel : nat) (cs : list entry) (pv : path_view) : res (option (list entry)) :=
  match fuel with
  | O => OOF
  | S f =>
    match cs with
    | [] => OK (Some [])
    | _ =>
      do i <- search cs pv;
      match i with
      | None => OK None
      | Some i =>
        do e <- aget cs i;
        match e with
        | File _ _ _ _ _ => OK None
        | Folder _ sub =>
          do '(pv, more) <- path_view_advance pv;
          if negb more then OK (Some sub) else folder_get_children f sub pv
        end
      end
    end
  end.

(** binout_directory.c:194-239 [binout_directory_get_children]; the part
    behind the root element repeats [binout_folder_get_children]. *)
Definition directory_get_children (dir : list entry) (pv : path_view) : res (option (list entry)) :=
  do abs <- path_is_abs (pv_string pv);
  if negb abs then UB
  else match dir with
  | [] => OK (Some [])
  | _ =>
    do '(pv, more) <- path_view_advance pv;
    if negb more then OK (Some dir)
    else folder_get_children (S (length (pv_string pv))) dir pv
  end.

(** binout_directory.c:326-369 [binout_folder_get_file]; the returned entry. *)
Fixpoint folder_get_file (fuel : nat) (cs : list entry) (pv : path_view) : res (option entry) :=
  match fuel with
  | O => OOF
  | S f =>
    match cs with
    | [] => OK None
    | _ =>
      do i <- search cs pv;
      match i with
      | None => OK None
      | Some i =>
        do e <- aget cs i;
        do '(pv, more) <- path_view_advance pv;
        match e with
        | File _ _ _ _ _ => OK (if more then None else Some e)
        | Folder _ sub => if negb more then OK None else folder_get_file f sub pv
        end
      end
    end
  end.

(** binout_directory.c:280-324 [binout_directory_get_file] *)
Definition directory_get_file (dir : list entry) (pv : path_view) : res (option entry) :=
  match dir with
  | [] => OK None
  | _ =>
    do abs <- path_is_abs (pv_string pv);
    if negb abs then UB
    else
      do '(pv, more) <- path_view_advance pv;
      if negb more then OK None
      else
        do i <- search dir pv;
        match i with
        | None => OK None
        | Some i =>
          do e <- aget dir i;
          do '(pv, more) <- path_view_advance pv;
          if negb more then OK None
          else match e with
          | File _ _ _ _ _ => OK None
          | Folder _ sub => folder_get_file (S (length (pv_string pv))) sub pv
          end
        end
  end.
