(** * Model of the memory of the readers of dro::Binout: /repo/src/cpp/binout.cpp 60-260

    The C functions with their memory (BinMemModel.v) and the objects made of what they
    return (CppArrayModel.v).  [e]: the error string of the handle.  Arrays are counted
    in bytes, as their blocks are; the values are carried beside the objects, in the
    results of PyBinoutModel.v.  The strings of get_children are views of names that
    belong to the handle (HandleModel.v), here only the memory of the call is modelled.
    Allocation by std::vector and std::string is not. *)
From Verif Require Import CBase PathModel BinDirModel BinModel TimedModel CppArrayModel OwnModel D3ReadModel ReadMemModel BinMemModel PyBinoutModel.
Open Scope nat_scope.

(** An exception: what() and the String that holds it. *)
Inductive thrown_or (A : Type) := Value (x : A) | Exception (what : cstr) (s : arr).
Arguments Value {A}. Arguments Exception {A}.
(** binout.cpp:64, 119: ErrorString(m_handle.error_string, false), a view. *)
Definition error_view (m : cstr) (e : option ptr) : arr := {| a_data := e; a_size := length m; a_del := false |}.
(** binout.cpp:82-84, 247-249: a message of the wrapper's own, in [256 + length path] bytes. *)
Definition own_message {A} (h : heap) (room : nat) (m : cstr) : heap * thrown_or A :=
  let '(h, p) := h_malloc h (malloc room) in (h, Exception m {| a_data := Some p; a_size := length m; a_del := true |}).

(** binout.cpp:60-68 *)
Definition cpp_type_id_mem (h : heap) (e : option ptr) (b : binout) (path : cstr) : res (heap * option ptr * thrown_or Z) :=
  do ' (h, e, r) <- get_type_id_mem h e b path;
  OK (h, e, match snd r with Some m => Exception m (error_view m e) | None => Value (fst r) end).
(** binout.cpp:76-95 *)
Definition cpp_children_mem (h : heap) (b : binout) (path : cstr) : res (heap * thrown_or (list cstr)) :=
  do ' (h, cs, p) <- get_children_mem h b path;
  match cs with
  | None => OK (own_message h (256 + length path) (bs "The path """ ++ path ++ bs """ does not exist"))
  | Some l => do h <- h_free_opt h p; OK (h, Value l)
  end.
(** binout.cpp:109-126 *)
Definition cpp_read_mem (h : heap) (e : option ptr) (b : binout) (path : cstr) (t : Z) : res (heap * option ptr * thrown_or (pyval * arr)) :=
  do ' (h, e, r, p) <- binout_read_mem h e b 0 path t;
  OK (h, e, match r_error r with
            | Some m => Exception m (error_view m e)
            | None => Value (PArray t (r_size r) (or_null (r_data r)), {| a_data := p; a_size := Z.to_nat (r_size r * type_size t); a_del := true |})
            end).
(** binout.cpp:168-191: array [k] begins [k * num_values] elements after the first and
    owns the memory if [k] is 0. *)
Definition cpp_read_timed_mem (h : heap) (e : option ptr) (b : binout) (variable : cstr) (t : Z) : res (heap * option ptr * thrown_or (pyval * list (option arr))) :=
  do ' (h, e, r, p) <- read_timed_mem h e b variable 0 0 t;
  match t_error r with
  | Some m => OK (h, e, Exception m (error_view m e))
  | None =>
    match p with
    | None => UB (* &data[0] of NULL *)
    | Some p =>
      let width := Z.to_nat (t_values r * type_size t) in
      OK (h, e, Value (PRows t (t_values r) (map (row (or_null (t_data r)) width) (seq 0 (Z.to_nat (t_steps r)))), timed_from p width (Z.to_nat (t_steps r)) 0))
    end
  end.
(** binout.cpp:239-260: the path is copied to a std::string. *)
Definition cpp_real_path_mem (h : heap) (b : binout) (simple : cstr) : res (heap * thrown_or (cstr * Z * bool)) :=
  do ' (h, o, p) <- simple_path_to_real_mem h b simple;
  match o with
  | None => OK (own_message h (256 + length simple) (bs "The simple path """ ++ simple ++ bs """ can not be found"))
  | Some x => do h <- h_free_opt h p; OK (h, Value x)
  end.
