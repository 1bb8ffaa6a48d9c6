(** * Model of the single precision readers of /repo/src/d3plot.c

    The functions with the suffix _32: nodal vectors and times as floats.  For
    word size 4 the words are returned as they are, for word size 8 the doubles
    are converted to floats.  Numbers are bit patterns, as in D3ReadModel.  Not
    modelled: allocation failure; the conversion rounds to nearest, ties to even
    (the default rounding mode), and a NaN becomes a quiet NaN (x86). *)
From Verif Require Import CBase BinModel D3BufModel D3Model D3ReadModel.
Open Scope Z_scope.

(** The absolute value of a finite double in units of 2^-1074. *)
Definition magnitude (w : Z) : Z :=
  let e := w / 2 ^ 52 mod 2 ^ 11 in
  let m := w mod 2 ^ 52 in
  if e =? 0 then m else (2 ^ 52 + m) * 2 ^ (e - 1).
(** [v / d] rounded to the nearest integer, ties to even. *)
Definition round_even (v d : Z) : Z :=
  let q := v / d in
  let r := v mod d in
  if 2 * r <? d then q else if d <? 2 * r then q + 1 else if Z.even q then q else q + 1.
(** (float)x of a double, e.g. d3plot.c:1389, 3222-3224.  The unit in the last
    place of the result is 2^(t - 149). *)
Definition narrow (w : Z) : Z :=
  let s := w / 2 ^ 63 in
  let e := w / 2 ^ 52 mod 2 ^ 11 in
  let m := w mod 2 ^ 52 in
  s * 2 ^ 31 +
  (if e =? 2047 then 255 * 2 ^ 23 + (if m =? 0 then 0 else Z.lor (2 ^ 22) (m / 2 ^ 29))
   else
     let v := magnitude w in
     let t := Z.max 0 (Z.log2 v - 948) in
     Z.min (t * 2 ^ 23 + round_even v (2 ^ (t + 925))) (255 * 2 ^ 23)).

(** ** Times *)
(** d3plot.c:1368-1408.  [None]: -1.0f is returned. *)
Definition read_time_32 (pl : plot) (state : nat) : res (plot * option Z) :=
  let pl := clear pl in
  match state_at pl state with
  | None => OK (fail pl P_state, None)
  | Some s =>
    if d_ws (pl_buf pl) =? 8 then
      do ' (pl, d) <- read_at pl 1 (u64 (s + pl_ptr pl K_STATE_TIME));
      OK (pl, match d with Some (v :: _) => Some (narrow v) | _ => None end)
    else
      do ' (pl, d) <- read_at pl 1 (u64 (s + pl_ptr pl K_STATE_TIME));
      OK (pl, match d with Some (v :: _) => Some v | _ => None end)
  end.
(** d3plot.c:1417-1441 ([conv] is the conversion to float), 1443-1459 (there is
    none). *)
Fixpoint all_times_32 (conv : Z -> Z) (pl : plot) (states : list Z) : res (plot * option (list Z)) :=
  match states with
  | [] => OK (pl, Some [])
  | s :: r =>
    do ' (pl, d) <- read_at pl 1 (u64 (s + pl_ptr pl K_STATE_TIME));
    match d with
    | Some (v :: _) => do ' (pl, l) <- all_times_32 conv pl r; OK (pl, match l with Some l => Some (conv v :: l) | None => None end)
    | _ => OK (pl, None)
    end
  end.
(** d3plot.c:1410-1463 *)
Definition read_all_time_32 (pl : plot) : res (plot * list Z) :=
  let pl := clear pl in
  do ' (pl, l) <- (if d_ws (pl_buf pl) =? 8 then all_times_32 narrow pl (pl_states pl) else all_times_32 (fun v => v) pl (pl_states pl));
  OK (pl, or_null l).

(** ** Nodal vectors *)
(** d3plot.c:3198-3257 *)
Definition node_data_32 (pl : plot) (state : nat) (k : dkind) : res (plot * option (list Z)) :=
  let pl := clear pl in
  if pl_ptr pl k =? 0 then OK (fail pl P_node_data, None) else
  if d_ws (pl_buf pl) =? 8 then
    do ' (pl, d) <- node_data pl state k;
    OK (pl, match d with Some l => Some (map narrow l) | None => None end)
  else
  match state_at pl state with
  | None => OK (fail pl P_state, None)
  | Some s => read_at pl (u64 (pl_cd pl NUMNP * 3)) (u64 (s + pl_ptr pl k))
  end.
(** d3plot.c:1106-1115, 1189-1198 *)
Definition read_node_velocity_32 (pl : plot) (state : nat) := node_data_32 pl state K_STATE_NODE_VEL.
Definition read_node_acceleration_32 (pl : plot) (state : nat) := node_data_32 pl state K_STATE_NODE_ACC.
(** d3plot.c:986-1042: the initial coordinates as floats, for displacements; the
    plot caches them as doubles too if it stores doubles. *)
Definition initial_32 (pl : plot) : res (plot * option (list Z)) :=
  if d_ws (pl_buf pl) =? 4 then read_at pl (u64 (pl_cd pl NUMNP * 3)) (pl_ptr pl K_NODE_COORDS)
  else
    match pl_initial pl with
    | Some init => OK (pl, Some (map narrow init))
    | None =>
      do ' (pl, init) <- read_at pl (u64 (pl_cd pl NUMNP * 3)) (pl_ptr pl K_NODE_COORDS);
      match init with
      | None => OK (pl, None)
      | Some init => OK (with_initial pl (Some init), Some (map narrow init))
      end
    end.
(** d3plot.c:974-1057; [init32] is the member initial_node_coords_32, [fadd] the
    addition of floats.  The loop 1044-1052 is the one of 745-755. *)
Definition read_node_coordinates_32 (fadd : Z -> Z -> Z) (pl : plot) (init32 : option (list Z)) (state : nat) : res (plot * (option (list Z) * option (list Z))) :=
  do ' (pl, data) <- node_data_32 pl state K_STATE_NODE_COORDS;
  match data with
  | None => OK (pl, (init32, None))
  | Some data =>
    if pl_cd pl IU =? 2 then
      match init32 with
      | Some _ => OK (pl, (init32, Some data))
      | None =>
        do ' (pl, init) <- initial_32 pl;
        match init with
        | None => OK (pl, (None, None))
        | Some init =>
          do data <- add_initial fadd (S (length data)) data init 0 (Z.to_nat (pl_cd pl NUMNP));
          OK (pl, (Some init, Some data))
        end
      end
    else OK (pl, (init32, Some data))
  end.
(** d3plot.c:1059-1104, 1117-1187, 1200-1271 *)
Definition read_all_node_data_32 (pl : plot) (k : dkind) : res (plot * option (list Z)) :=
  if d_ws (pl_buf pl) =? 8 then
    do ' (pl, l) <- read_all_node_data pl k;
    match pl_err pl, l with
    | None, Some l => OK (pl, Some (map narrow l))
    | _, _ => OK (pl, None)
    end
  else
    let pl := clear pl in all_node_words pl k (pl_states pl).
