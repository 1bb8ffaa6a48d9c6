(** * Model of the Python class Binout

    python/pybind11_binout.cpp and the functions of cpp/binout.cpp it calls.
    A result is the Python value or the message of the exception.  Arrays are
    their bytes (the owners of the memory: CppArrayModel.v, C64), lists of
    strings are lists of texts.  The conversion of values by pybind11 is not
    modelled; paths have no NUL character (std::string::c_str). *)
From Verif Require Import CBase PathModel BinDirModel BinModel TimedModel.

Inductive pyval :=
| PArray (t n : Z) (bytes : list Z)              (* Array of type t with n elements *)
| PRows (t n : Z) (rows : list (list Z))         (* list of Arrays with n elements each *)
| PNames (l : list cstr).
Inductive pyres (A : Type) := Returns (v : A) | Raises (m : cstr).
Arguments Returns {A}. Arguments Raises {A}.

(** cpp/binout.cpp:239-260 [Binout::simple_path_to_real]: the message buffer
    has 256 + length bytes. *)
Definition cpp_simple_path (b : binout) (simple : cstr) : res (pyres (cstr * Z * bool)) :=
  do o <- simple_path_to_real b simple;
  OK (match o with
      | None => Raises (bs "The simple path """ ++ simple ++ bs """ can not be found")
      | Some x => Returns x
      end).

(** cpp/binout.cpp:75-95 [Binout::get_children] *)
Definition cpp_get_children (b : binout) (path : cstr) : res (pyres (list cstr)) :=
  do cs <- binout_get_children b path;
  OK (match cs with
      | None => Raises (bs "The path """ ++ path ++ bs """ does not exist")
      | Some l => Returns l
      end).

(** cpp/binout.cpp:97-107 [Binout::get_num_timesteps] *)
Definition cpp_num_timesteps (b : binout) (path : cstr) : res (pyres nat) :=
  do n <- num_timesteps b path;
  OK (match n with None => Raises (bs "The path does not exist or has files as children") | Some n => Returns n end).

(** cpp/binout.cpp:109-126 [Binout_read]; the size is not initialised, but is
    used only if there is no error. *)
Definition cpp_read (b : binout) (path : cstr) (t : Z) : res (pyres pyval) :=
  do r <- binout_read b 0 path t;
  OK (match r_error r, r_data r with
      | Some e, _ => Raises e
      | None, Some bytes => Returns (PArray t (r_size r) bytes)
      | None, None => Returns (PArray t (r_size r) [])
      end).

(** cpp/binout.cpp:168-191 [Binout_read_timed]: the array of time step [k]
    starts at element [k * num_values]. *)
Definition row (data : list Z) (w k : nat) : list Z := firstn w (skipn (k * w) data).
Definition cpp_read_timed (b : binout) (variable : cstr) (t : Z) : res (pyres pyval) :=
  do r <- read_timed b variable 0 0 t;
  OK (match t_error r, t_data r with
      | Some e, _ => Raises e
      | None, Some data => Returns (PRows t (t_values r) (map (row data (Z.to_nat (t_values r * type_size t))) (seq 0 (Z.to_nat (t_steps r)))))
      | None, None => Returns (PRows t (t_values r) [])
      end).

(** The types of the two switches (pybind11_binout.cpp:62-84, 94-114):
    Int8 to Float64. *)
Definition known_type (t : Z) : bool := (1 <=? t)%Z && (t <=? 10)%Z.

(** pybind11_binout.cpp:129-133 std::sort by strcmp.  Names that compare equal
    are equal, so the result does not depend on the algorithm. *)
Fixpoint insert_name (n : cstr) (l : list cstr) : list cstr :=
  match l with
  | [] => [n]
  | m :: r => if (strcmp m n <? 0)%Z then m :: insert_name n r else n :: l
  end.
Definition sort_names (l : list cstr) : list cstr := fold_right insert_name [] l.

(** pybind11_binout.cpp:115-139: reading a folder.  [operator[]] of an empty
    vector is undefined. *)
Definition py_read_folder (b : binout) (real : cstr) : res (pyres pyval) :=
  do c <- cpp_get_children b real;
  match c with
  | Raises m => OK (Raises m)
  | Returns l =>
    match l with
    | [] => UB
    | _ =>
      do z <- aget l (length l - 1);
      do a <- aget l 0;
      if (strcmp z (bs "metadata") =? 0)%Z && (strcmp a (bs "d000001") =? 0)%Z then
        do m <- cpp_get_children b (real ++ bs "/metadata");
        match m with
        | Raises e => OK (Raises e)
        | Returns m =>
          do d <- cpp_get_children b (real ++ bs "/d000001");
          match d with
          | Raises e => OK (Raises e)
          | Returns d => OK (Returns (PNames (sort_names (m ++ d))))
          end
        end
      else OK (Returns (PNames l))
    end
  end.

(** pybind11_binout.cpp:52-142 [Binout_read] *)
Definition py_read (b : binout) (path : cstr) : res (pyres pyval) :=
  do o <- cpp_simple_path b path;
  match o with
  | Raises m => OK (Raises m)
  | Returns (real, t, timed) =>
    if timed : bool then
      if known_type t then cpp_read_timed b real t
      else do m <- error_string (bs "Unable to read """ ++ path ++ bs """ because it has an invalid type"); OK (Raises m)
    else if known_type t then cpp_read b real t
    else py_read_folder b real
  end.

(** pybind11_binout.cpp:144-149 *)
Definition py_type_id (b : binout) (path : cstr) : res (pyres Z) :=
  do o <- cpp_simple_path b path;
  OK (match o with Raises m => Raises m | Returns (_, t, _) => Returns t end).
(** pybind11_binout.cpp:151-160 *)
Definition py_variable_exists (b : binout) (path : cstr) : res bool :=
  do o <- cpp_simple_path b path;
  OK (match o with Raises _ => false | Returns _ => true end).
(** pybind11_binout.cpp:162-167 *)
Definition py_num_timesteps (b : binout) (path : cstr) : res (pyres nat) :=
  do o <- cpp_simple_path b path;
  match o with Raises m => OK (Raises m) | Returns (real, _, _) => cpp_num_timesteps b real end.
