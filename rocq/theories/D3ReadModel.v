(** * Model of the readers of /repo/src/d3plot.c: ids, titles, connectivity,
    times and nodal vectors

    A reader gets the plot and returns it: only its error changes (and the
    cached initial coordinates).  An array result is a list: [] is NULL with the
    length 0.  Words that are interpreted as numbers stay bit patterns: [widen]
    is the conversion from float to double.  Not modelled: allocation failure.
    The _32 functions are in D3FloatModel. *)
From Verif Require Import CBase BinModel D3BufModel D3Model.
Open Scope Z_scope.

(** error_string (d3plot_error_macros.h:33-43, 70-72) *)
Definition with_err (pl : plot) (e : option perr) : plot :=
  {| pl_buf := pl_buf pl; pl_cd := pl_cd pl; pl_istrn := pl_istrn pl; pl_ptr := pl_ptr pl; pl_states := pl_states pl; pl_err := e; pl_initial := pl_initial pl |}.
Definition with_initial (pl : plot) (v : option (list Z)) : plot :=
  {| pl_buf := pl_buf pl; pl_cd := pl_cd pl; pl_istrn := pl_istrn pl; pl_ptr := pl_ptr pl; pl_states := pl_states pl; pl_err := pl_err pl; pl_initial := v |}.
Definition clear (pl : plot) : plot := with_err pl None.

(** The words an array of bytes consists of. *)
Fixpoint words (n : nat) (ws : Z) (d : list Z) : list Z :=
  match n with
  | O => []
  | S n => le_value (firstn (Z.to_nat ws) d) :: words n ws (skipn (Z.to_nat ws) d)
  end.

(** d3_buffer_read_words_at, d3_pointer_close, and the check of the error of the
    buffer, as in all readers (e.g. d3plot.c:3272-3283).  [None]: the error. *)
Definition read_bytes_at (pl : plot) (n pos : Z) : res (plot * option (list Z)) :=
  do ' (b, p, d) <- read_words_at (pl_buf pl) n pos;
  do _ <- pointer_close b p;
  match d_err b with
  | Some _ => OK (with_err (with_buf pl b) (Some P_words), None)
  | None => OK (with_buf pl b, Some d)
  end.
Definition read_at (pl : plot) (n pos : Z) : res (plot * option (list Z)) :=
  do ' (pl, d) <- read_bytes_at pl n pos;
  OK (pl, match d with Some d => Some (words (Z.to_nat n) (d_ws (pl_buf pl)) d) | None => None end).
Definition or_null {A} (l : option (list A)) : list A := match l with Some l => l | None => [] end.

(** ** Ids *)
(** d3plot.c:3259-3306 *)
Definition read_ids (pl : plot) (k : dkind) (num : Z) : res (plot * list Z) :=
  let pl := clear pl in
  if num =? 0 then OK (pl, []) else
  do ' (pl, d) <- read_at pl num (pl_ptr pl k); OK (pl, or_null d).
(** d3plot.c:484-535; NEL8 is converted to size_t. *)
Definition read_node_ids (pl : plot) := read_ids pl K_NODE_IDS (pl_cd pl NUMNP).
Definition read_solid_element_ids (pl : plot) := read_ids pl K_EL8_IDS (u64 (pl_cd pl NEL8)).
Definition read_beam_element_ids (pl : plot) := read_ids pl K_EL2_IDS (pl_cd pl NEL2).
Definition read_shell_element_ids (pl : plot) := read_ids pl K_EL4_IDS (pl_cd pl NEL4).
Definition read_thick_shell_element_ids (pl : plot) := read_ids pl K_ELT_IDS (pl_cd pl NELT).

(** d3plot.c:599-614: the loop; [c] is the pointer, a part id has been read. *)
Fixpoint title_ids (n : nat) (c : dbuf * dptr) : res (dbuf * dptr * list Z) :=
  match n with
  | O => OK (c, [])
  | S n => do ' (c, v) <- word c; do c <- skipb c 72; do ' (c, l) <- title_ids n c; OK (c, v :: l)
  end.
(** d3plot.c:579-624.  The pointer that is closed is uninitialised if there are
    no parts. *)
Definition read_part_ids (pl : plot) : res (plot * list Z) :=
  let pl := clear pl in
  if pl_ptr pl K_PART_IDS =? 0 then
    if pl_ptr pl K_PART_TITLES =? 0 then OK (fail pl P_part_ids, []) else
    match Z.to_nat (pl_cd pl NMMAT) with
    | O => UB
    | S n =>
      do ' (b, p, d) <- read_words_at (pl_buf pl) 1 (pl_ptr pl K_PART_TITLES);
      do c <- skipb (b, p) 72;
      do ' (c, l) <- title_ids n c;
      do _ <- pointer_close (fst c) (snd c);
      OK (with_buf pl (fst c), le_value d :: l)
    end
  else read_ids pl K_PART_IDS (pl_cd pl NMMAT).

(** d3plot.c:626-675 *)
Definition title_size (ws : Z) : Z := 18 / (if ws =? 8 then 2 else 1).
Fixpoint more_titles (n : nat) (c : dbuf * dptr) : res (dbuf * dptr * option (list (list Z))) :=
  match n with
  | O => OK (c, Some [])
  | S n =>
    do c <- skip c 1;
    do ' (b, p, d) <- read_words (fst c) (snd c) (title_size (d_ws (fst c)));
    match d_err b with
    | Some _ => OK (b, p, None)
    | None => do ' (c, l) <- more_titles n (b, p); OK (c, match l with Some l => Some (d :: l) | None => None end)
    end
  end.
Definition read_part_titles (pl : plot) : res (plot * list (list Z)) :=
  let pl := clear pl in
  match Z.to_nat (pl_cd pl NMMAT) with
  | O => UB (* the pointer is uninitialised *)
  | S n =>
    do ' (b, p, d) <- read_words_at (pl_buf pl) (title_size (d_ws (pl_buf pl))) (u64 (pl_ptr pl K_PART_TITLES + 1));
    do ' (c, l) <- match d_err b with
                   | Some _ => OK (b, p, None)
                   | None => do ' (c, l) <- more_titles n (b, p); OK (c, match l with Some l => Some (d :: l) | None => None end)
                   end;
    do _ <- pointer_close (fst c) (snd c);
    let pl := with_buf pl (fst c) in
    match l with
    | Some l => OK (pl, l)
    | None => OK (fail pl P_words, [])
    end
  end.

(** d3plot.c:2889-2911: the bytes before the NUL that is appended. *)
Definition read_title (pl : plot) : res (plot * list Z) :=
  let pl := clear pl in do ' (pl, d) <- read_bytes_at pl 10 (pl_ptr pl K_TITLE); OK (pl, or_null d).
(** d3plot.c:2934-2952 (2913-2932 converts it with localtime): a time_t. *)
Definition read_epoch_run_time (pl : plot) : res (plot * Z) :=
  let pl := clear pl in
  do ' (pl, d) <- read_at pl 1 (pl_ptr pl K_RUN_TIME);
  OK (pl, match d with Some (v :: _) => s64 v | _ => 0 end).

(** ** Connectivity *)
(** Stored numbers begin with 1: the subtraction is done in uint32_t for word
    size 4, in d3_word for word size 8. *)
Definition minus_one (ws v : Z) : Z := if ws =? 4 then (v - 1) mod 2 ^ 32 else u64 (v - 1).
(** d3_defines.h:36-74 *)
Record con : Type := { c_nodes : list Z; c_mat : Z }.
Record beam_con : Type := { bc_nodes : list Z; bc_orient : Z; bc_null : list Z; bc_mat : Z }.
Fixpoint agets (d : list Z) (is : list nat) : res (list Z) :=
  match is with [] => OK [] | i :: r => do x <- aget d i; do l <- agets d r; OK (x :: l) end.
(** The loop over the elements. *)
Fixpoint build {A} (f : nat -> res A) (n i : nat) : res (list A) :=
  match n with O => OK [] | S n => do x <- f i; do l <- build f n (S i); OK (x :: l) end.
(** The node numbers are the members [is] of a group of [w] words, the part is
    the member [m]. *)
Definition con_at (ws : Z) (w : nat) (is : list nat) (m : nat) (d : list Z) (i : nat) : res con :=
  do ns <- agets d (map (fun k => i * w + k)%nat is); do m <- aget d (i * w + m)%nat;
  OK {| c_nodes := map (minus_one ws) ns; c_mat := minus_one ws m |}.
Definition beam_con_at (ws : Z) (d : list Z) (i : nat) : res beam_con :=
  do n0 <- aget d (i * 6 + 0)%nat; do n1 <- aget d (i * 6 + 1)%nat; do o <- aget d (i * 6 + 2)%nat;
  do z0 <- aget d (i * 6 + 3)%nat; do z1 <- aget d (i * 6 + 4)%nat; do m <- aget d (i * 6 + 5)%nat;
  OK {| bc_nodes := [minus_one ws n0; minus_one ws n1]; bc_orient := minus_one ws o; bc_null := [z0; z1]; bc_mat := minus_one ws m |}.
Definition read_con {A} (pl : plot) (num w : Z) (k : dkind) (f : Z -> list Z -> nat -> res A) : res (plot * list A) :=
  let pl := clear pl in
  if num <=? 0 then OK (pl, []) else
  do ' (pl, d) <- read_at pl (u64 (w * num)) (pl_ptr pl k);
  match d with
  | None => OK (pl, [])
  | Some d => do l <- build (f (d_ws (pl_buf pl)) d) (Z.to_nat num) 0; OK (pl, l)
  end.
(** d3plot.c:2568-2650 *)
Definition read_solid_elements (pl : plot) : res (plot * list con) :=
  read_con pl (pl_cd pl NEL8) 9 K_EL8_CONNECT (fun ws => con_at ws 9 [0; 1; 2; 3; 4; 5; 6; 7]%nat 8).
(** d3plot.c:2652-2737 *)
Definition read_thick_shell_elements (pl : plot) : res (plot * list con) :=
  read_con pl (pl_cd pl NELT) 9 K_ELT_CONNECT (fun ws => con_at ws 9 [0; 1; 2; 3; 4; 5; 6; 7]%nat 8).
(** d3plot.c:2739-2812 *)
Definition read_beam_elements (pl : plot) : res (plot * list beam_con) := read_con pl (pl_cd pl NEL2) 6 K_EL2_CONNECT beam_con_at.
(** d3plot.c:2814-2887 *)
Definition read_shell_elements (pl : plot) : res (plot * list con) :=
  read_con pl (pl_cd pl NEL4) 5 K_EL4_CONNECT (fun ws => con_at ws 5 [0; 1; 2; 3]%nat 4).

(** ** Numbers *)
(** (double)x of a float, on bit patterns (IEEE 754: exact; the quiet bit a
    signalling NaN gets is not modelled). *)
Definition widen (w : Z) : Z :=
  let s := w / 2 ^ 31 in
  let e := w / 2 ^ 23 mod 2 ^ 8 in
  let m := w mod 2 ^ 23 in
  s * 2 ^ 63 +
  (if e =? 255 then 2047 * 2 ^ 52 + m * 2 ^ 29
   else if e =? 0 then
     if m =? 0 then 0 else let k := Z.log2 m in (k + 874) * 2 ^ 52 + (m - 2 ^ k) * 2 ^ (52 - k)
   else (e + 896) * 2 ^ 52 + m * 2 ^ 29).
Definition to_double (ws w : Z) : Z := if ws =? 4 then widen w else w.

(** ** Times *)
(** plot_file->data_pointers[D3PLT_PTR_STATES + state] for state < num_states. *)
Definition state_at (pl : plot) (state : nat) : option Z := nth_error (pl_states pl) state.
(** d3plot.c:1273-1311.  [None]: -1.0 is returned. *)
Definition read_time (pl : plot) (state : nat) : res (plot * option Z) :=
  let pl := clear pl in
  match state_at pl state with
  | None => OK (fail pl P_state, None)
  | Some s =>
    do ' (pl, d) <- read_at pl 1 (u64 (s + pl_ptr pl K_STATE_TIME));
    OK (pl, match d with Some (v :: _) => Some (to_double (d_ws (pl_buf pl)) v) | _ => None end)
  end.
(** d3plot.c:1313-1366 *)
Fixpoint all_times (pl : plot) (states : list Z) : res (plot * option (list Z)) :=
  match states with
  | [] => OK (pl, Some [])
  | s :: r =>
    do ' (pl, d) <- read_at pl 1 (u64 (s + pl_ptr pl K_STATE_TIME));
    match d with
    | Some (v :: _) => do ' (pl, l) <- all_times pl r; OK (pl, match l with Some l => Some (to_double (d_ws (pl_buf pl)) v :: l) | None => None end)
    | _ => OK (pl, None)
    end
  end.
Definition read_all_time (pl : plot) : res (plot * list Z) :=
  let pl := clear pl in do ' (pl, l) <- all_times pl (pl_states pl); OK (pl, or_null l).

(** ** Nodal vectors *)
(** d3plot.c:3141-3257 (_d3plot_read_node_data and, for word size 4, the raw
    words of _d3plot_read_node_data_32). *)
Definition node_words (pl : plot) (state : nat) (k : dkind) : res (plot * option (list Z)) :=
  let pl := clear pl in
  if pl_ptr pl k =? 0 then OK (fail pl P_node_data, None) else
  match state_at pl state with
  | None => OK (fail pl P_state, None)
  | Some s => read_at pl (u64 (pl_cd pl NUMNP * 3)) (u64 (s + pl_ptr pl k))
  end.
Definition node_data (pl : plot) (state : nat) (k : dkind) : res (plot * option (list Z)) :=
  do ' (pl, d) <- node_words pl state k;
  OK (pl, match d with Some l => Some (map (to_double (d_ws (pl_buf pl))) l) | None => None end).
(** d3plot.c:825-834, 899-908 *)
Definition read_node_velocity (pl : plot) (state : nat) := node_data pl state K_STATE_NODE_VEL.
Definition read_node_acceleration (pl : plot) (state : nat) := node_data pl state K_STATE_NODE_ACC.
(** d3plot.c:745-755: the loop that adds the initial coordinates ([fadd] is the
    addition of doubles); it ends at num_nodes, not at 3 * num_nodes. *)
Fixpoint add_initial (fadd : Z -> Z -> Z) (fuel : nat) (data init : list Z) (i num_nodes : nat) : res (list Z) :=
  match fuel with
  | O => OOF
  | S fuel =>
    if (i <? num_nodes)%nat then
      let add1 (data : list Z) (j : nat) := do x <- aget data j; do y <- aget init j; aset data j (fadd x y) in
      do data <- add1 data i; do data <- add1 data (i + 1)%nat; do data <- add1 data (i + 2)%nat;
      add_initial fadd fuel data init (i + 3)%nat num_nodes
    else OK data
  end.
(** d3plot.c:677-759 *)
Definition read_node_coordinates (fadd : Z -> Z -> Z) (pl : plot) (state : nat) : res (plot * option (list Z)) :=
  do ' (pl, data) <- node_data pl state K_STATE_NODE_COORDS;
  match data with
  | None => OK (pl, None)
  | Some data =>
    if pl_cd pl IU =? 2 then
      match pl_initial pl with
      | Some _ => OK (pl, Some data)
      | None =>
        do ' (pl, init) <- read_at pl (u64 (pl_cd pl NUMNP * 3)) (pl_ptr pl K_NODE_COORDS);
        match init with
        | None => OK (pl, None)
        | Some init =>
          let init := map (to_double (d_ws (pl_buf pl))) init in
          do data <- add_initial fadd (S (length data)) data init 0 (Z.to_nat (pl_cd pl NUMNP));
          OK (with_initial pl (Some init), Some data)
        end
      end
    else OK (pl, Some data)
  end.
(** d3plot.c:761-823, 836-897, 910-972 (and 1059-1271 for word size 4): all
    states one after the other.  The pointer is not checked. *)
Fixpoint all_node_words (pl : plot) (k : dkind) (states : list Z) : res (plot * option (list Z)) :=
  match states with
  | [] => OK (pl, Some [])
  | s :: r =>
    do ' (pl, d) <- read_at pl (u64 (pl_cd pl NUMNP * 3)) (u64 (s + pl_ptr pl k));
    match d with
    | Some d => do ' (pl, l) <- all_node_words pl k r; OK (pl, match l with Some l => Some (d ++ l) | None => None end)
    | None => OK (pl, None)
    end
  end.
Definition read_all_node_data (pl : plot) (k : dkind) : res (plot * option (list Z)) :=
  let pl := clear pl in
  do ' (pl, l) <- all_node_words pl k (pl_states pl);
  OK (pl, match l with Some l => Some (map (to_double (d_ws (pl_buf pl))) l) | None => None end).
