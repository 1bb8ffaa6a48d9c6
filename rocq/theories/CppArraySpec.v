(** * What a user of dro::Array expects: every array is a value of its own

    This file does not mention memory.  An object holds [Some values], or
    nothing ([None]: default constructed or moved from), or is destroyed. *)
From Verif Require Import CBase CppArrayModel.

Inductive vobj := Gone | Empty | Holds (c : list Z).

Definition values (o : vobj) : list Z := match o with Holds c => c | _ => [] end.

Fixpoint replace {A} (l : list A) (i : nat) (x : A) : list A :=
  match l, i with
  | [], _ => []
  | _ :: t, O => x :: t
  | y :: t, S i => y :: replace t i x
  end.

Definition alive (v : list vobj) (j : nat) : Prop :=
  exists o, nth_error v j = Some o /\ o <> Gone.

(** One operation on values: the objects before, the operation, what the
    caller sees, the objects after. *)
Inductive vstep (v : list vobj) : op -> seen -> list vobj -> Prop :=
| V_new n : vstep v (New n) Nothing (v ++ [Holds (repeat JUNK n)])
| V_adopt c : vstep v (Adopt c) Nothing (v ++ [Holds c])
| V_default : vstep v Default Nothing (v ++ [Empty])
| V_move_new j o : nth_error v j = Some o -> o <> Gone ->
    vstep v (MoveNew j) Nothing (replace v j Empty ++ [o])
| V_copy_new j o : nth_error v j = Some o -> o <> Gone ->
    vstep v (CopyNew j) Nothing (v ++ [Holds (values o)])
| V_move_to i j o : nth_error v j = Some o -> o <> Gone -> alive v i -> i <> j ->
    vstep v (MoveTo i j) Nothing (replace (replace v i o) j Empty)
| V_copy_to i j o : nth_error v j = Some o -> o <> Gone -> alive v i -> i <> j ->
    vstep v (CopyTo i j) Nothing (replace v i (Holds (values o)))
| V_get j k o x : nth_error v j = Some o -> o <> Gone -> nth_error (values o) k = Some x ->
    vstep v (Get j k) (Value x) v
| V_get_range j k o : nth_error v j = Some o -> o <> Gone -> length (values o) <= k ->
    vstep v (Get j k) Thrown v
| V_set j k x c : nth_error v j = Some (Holds c) -> k < length c ->
    vstep v (Set_ j k x) Nothing (replace v j (Holds (replace c k x)))
| V_set_range j k x o : nth_error v j = Some o -> o <> Gone -> length (values o) <= k ->
    vstep v (Set_ j k x) Thrown v
| V_size j o : nth_error v j = Some o -> o <> Gone -> vstep v (SizeOf j) (Size (length (values o))) v
| V_equal i j o p b : nth_error v i = Some o -> o <> Gone -> nth_error v j = Some p -> p <> Gone ->
    (b = true <-> values o = values p) -> vstep v (Equal i j) (Truth b) v
| V_destroy j o : nth_error v j = Some o -> o <> Gone -> vstep v (Destroy j) Nothing (replace v j Gone).

Inductive vrun : list vobj -> list op -> list seen -> list vobj -> Prop :=
| V_done v : vrun v [] [] v
| V_step v o r v' t rs v'' : vstep v o r v' -> vrun v' t rs v'' -> vrun v (o :: t) (r :: rs) v''.

(** An assignment that overwrites an array which still holds values. *)
Definition overwrites (v : list vobj) (o : op) : Prop :=
  exists i j c, (o = MoveTo i j \/ o = CopyTo i j) /\ nth_error v i = Some (Holds c).

(** A run without such assignments. *)
Inductive no_overwrite : list vobj -> list op -> Prop :=
| N_done v : no_overwrite v []
| N_step v o r v' t : ~ overwrites v o -> vstep v o r v' -> no_overwrite v' t -> no_overwrite v (o :: t).

(** Memory that is still allocated. *)
Definition allocated (s : mach) (b : nat) : Prop := exists c, nth_error (m_heap s) b = Some (Some c).

(** ** Time steps *)

(** The values of the time steps of a result: [data] cut into pieces of
    [num_values]. *)
Definition steps_of (data : list Z) (num_values num_timesteps : nat) : list (list Z) :=
  map (fun t => firstn num_values (skipn (t * num_values) data)) (seq 0 num_timesteps).

(** Operations that only look at or assign elements. *)
Definition element_op (o : op) : Prop :=
  match o with Get _ _ | Set_ _ _ _ | SizeOf _ => True | _ => False end.

(** An operation a program may perform: it uses objects that are alive and
    does not assign an object to itself.  ([View] is treated with the time
    steps.) *)
Definition permitted (v : list vobj) (o : op) : Prop :=
  match o with
  | New _ | Adopt _ | Default => True
  | MoveNew j | CopyNew j | Get j _ | Set_ j _ _ | SizeOf j | Destroy j => alive v j
  | MoveTo i j | CopyTo i j => alive v i /\ alive v j /\ i <> j
  | Equal i j => alive v i /\ alive v j
  | View _ _ _ => False
  end.

(** ** Characters *)
Definition printable (s : list Z) : Prop := Forall (fun b => 32 <= b < 127)%Z s.
