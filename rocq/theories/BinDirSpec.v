(** * What the directory of a binout means *)
From Verif Require Import CBase SearchSpec PathModel PathSpec BinDirModel.

(** A variable: type, size, file and position. *)
Definition info := (Z * Z * Z * Z)%type.

(** The calls that fill a directory: insert (or find) a folder and make it the
    current one; insert a variable into the current folder. *)
Inductive op :=
| OpFolder (path : cstr)
| OpFile (name : cstr) (i : info).

(** Their execution on the model; a variable without a current folder is a
    NULL pointer access. *)
Definition insert_folder_path (dir : list entry) (path : cstr) : res (list entry * option addr) :=
  do pv <- path_view_new path;
  do '(pv, _) <- path_view_advance pv;
  directory_insert_folder dir pv.
Definition insert_variable (dir : list entry) (cur : option addr) (name : cstr) (i : info) : res (list entry) :=
  match cur with
  | None => UB
  | Some a => let '(vt, sz, fi, pos) := i in at_folder a dir (fun cs => folder_insert_file cs name vt sz fi pos)
  end.
Fixpoint run (dir : list entry) (cur : option addr) (ops : list op) : res (list entry * option addr) :=
  match ops with
  | [] => OK (dir, cur)
  | OpFolder p :: r => do '(dir, cur) <- insert_folder_path dir p; run dir cur r
  | OpFile n i :: r => do dir <- insert_variable dir cur n i; run dir cur r
  end.

(** The two queries on a path. *)
Definition get_file (dir : list entry) (path : cstr) : res (option entry) :=
  do pv <- path_view_new path; directory_get_file dir pv.
Definition get_children (dir : list entry) (path : cstr) : res (option (list entry)) :=
  do pv <- path_view_new path; directory_get_children dir pv.

(** ** The meaning of a history, without any tree *)

(** The variables recorded by a history, in order, with their full paths. *)
Fixpoint records (cur : list (list Z)) (ops : list op) : list (list (list Z) * info) :=
  match ops with
  | [] => []
  | OpFolder p :: r => records (elements p) r
  | OpFile n i :: r => (cur ++ [n], i) :: records cur r
  end.
(** The folder of the last folder record. *)
Fixpoint cur_of (cur : list (list Z)) (ops : list op) : list (list Z) :=
  match ops with [] => cur | OpFolder p :: r => cur_of (elements p) r | OpFile _ _ :: r => cur_of cur r end.
Fixpoint folder_paths (ops : list op) : list (list (list Z)) :=
  match ops with
  | [] => []
  | OpFolder p :: r => elements p :: folder_paths r
  | OpFile _ _ :: r => folder_paths r
  end.

(** The last variable recorded under the path [p]. *)
Definition last_record (l : list (list (list Z) * info)) (p : list (list Z)) (o : option info) : Prop :=
  match o with
  | Some i => exists a b, l = a ++ (p, i) :: b /\ forall j, ~ In (p, j) b
  | None => forall j, ~ In (p, j) l
  end.

Definition prefix (q p : list (list Z)) : Prop := exists r, p = q ++ r.

(** [q] is a folder: a recorded one or an ancestor of a recorded one. *)
Definition is_folder_path (ops : list op) (q : list (list Z)) : Prop := exists p, In p (folder_paths ops) /\ prefix q p.

(** Paths of the form "/a/b": one separator in front, 7 bit characters. *)
Definition clean (p : cstr) : Prop := ascii_str p /\ exists c t, p = SEP :: c :: t /\ c <> SEP.

(** Histories the API contract admits: clean folder paths, a folder before the
    first variable, and no path that is both a folder and a variable. *)
Definition history_ok (ops : list op) : Prop :=
  (forall p, In (OpFolder p) ops -> clean p) /\
  (forall n i, In (OpFile n i) ops -> ascii_str n) /\
  (match ops with OpFile _ _ :: _ => False | _ => True end) /\
  (forall q i, In (q, i) (records [] ops) -> ~ is_folder_path ops q).

(** A folder above the path (or the root) has no entry. *)
Definition below_empty (ops : list op) (p : list (list Z)) : Prop :=
  exists a b, p = a ++ b /\ b <> [] /\ (a = [] \/ is_folder_path ops a) /\
    forall n, ~ is_folder_path ops (a ++ [n]) /\ forall i, ~ In (a ++ [n], i) (records [] ops).
