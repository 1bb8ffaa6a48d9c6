(** * What the readers must return *)
From Verif Require Import CBase BinModel D3BufModel D3BufSpec D3Model D3Spec D3ReadModel.
Open Scope Z_scope.

(** An opened plot, after any number of reads: it is what d3plot_open returned,
    except that its error may be any. *)
Definition opened (b : dbuf) (titles : Z) (states : list Z) (pl : plot) : Prop :=
  supported b /\ regular_states b /\ layout b titles states /\ exists pl0 e, open_buffer b = OK pl0 /\ pl = with_err pl0 e.

(** The [n] words from word [pos] on. *)
Definition stretch (b : dbuf) (pos n : Z) : list Z := map (fun i => wd b (pos + Z.of_nat i)) (seq 0 (Z.to_nat n)).

(** Node and part numbers are stored one based; the stored number 0 gives the
    largest value of a word. *)
Definition zero_based (ws v : Z) : Z := if v =? 0 then 2 ^ (8 * ws) - 1 else v - 1.
(** Element [i] of a connectivity table at [pos]: [n] nodes and the part. *)
Definition con_spec (b : dbuf) (pos n : Z) (i : Z) : con :=
  {| c_nodes := map (zero_based (d_ws b)) (stretch b (pos + i * (n + 1)) n); c_mat := zero_based (d_ws b) (wd b (pos + i * (n + 1) + n)) |}.
Definition beam_con_spec (b : dbuf) (pos i : Z) : beam_con :=
  {| bc_nodes := map (zero_based (d_ws b)) (stretch b (pos + i * 6) 2); bc_orient := zero_based (d_ws b) (wd b (pos + i * 6 + 2));
     bc_null := stretch b (pos + i * 6 + 3) 2; bc_mat := zero_based (d_ws b) (wd b (pos + i * 6 + 5)) |}.
(** The elements 0, ..., n - 1. *)
Definition each {A} (n : Z) (f : Z -> A) : list A := map (fun i => f (Z.of_nat i)) (seq 0 (Z.to_nat n)).

(** ** Numbers: the value of a finite float / double in units of 2^-1074. *)
Definition ieee (ebits mbits bias : Z) (w : Z) : option Z :=
  let s := w / 2 ^ (ebits + mbits) in
  let e := w / 2 ^ mbits mod 2 ^ ebits in
  let m := w mod 2 ^ mbits in
  if e =? 2 ^ ebits - 1 then None
  else Some ((-1) ^ s * (if e =? 0 then m * 2 ^ (1 - bias - mbits + 1074) else (2 ^ mbits + m) * 2 ^ (e - bias - mbits + 1074))).
Definition float_value : Z -> option Z := ieee 8 23 127.
Definition double_value : Z -> option Z := ieee 11 52 1023.
(** The number a word of a d3plot stands for. *)
Definition number (b : dbuf) (w : Z) : option Z := if d_ws b =? 4 then float_value w else double_value w.

(** ** Part titles: the id and the 72 bytes of part [i] of the header block. *)
Definition title_entry (b : dbuf) (titles i : Z) : Z := titles + i * (1 + 72 / d_ws b).
Definition title_bytes (b : dbuf) (titles i : Z) : list Z := bytes_from b ((title_entry b titles i + 1) * d_ws b) 72.

(** ** Outcomes.  A reader returns [x] without an error / reports [e] and returns
    [x]; afterwards the plot is as usable as before. *)
Definition gives {A} (b : dbuf) (titles : Z) (states : list Z) (r : res (plot * A)) (x : A) : Prop :=
  exists pl, r = OK (pl, x) /\ pl_err pl = None /\ opened b titles states pl.
Definition reports {A} (b : dbuf) (titles : Z) (states : list Z) (r : res (plot * A)) (e : perr) (x : A) : Prop :=
  exists pl, r = OK (pl, x) /\ pl_err pl = Some e /\ opened b titles states pl.
(** The double [t] is the number the word [w] stands for: the same bits, or the
    float with the same value. *)
Definition same_number (b : dbuf) (w t : Z) : Prop := double_value t = number b w /\ (d_ws b = 8 -> t = w).
(** The word that announces a nodal vector, and its place in a state. *)
Inductive vector : Set := Coordinates | Velocity | Acceleration.
Definition announced (b : dbuf) (v : vector) : Z := cval b (match v with Coordinates => IU | Velocity => IV | Acceleration => IA end).
Definition vector_place (b : dbuf) (v : vector) : Z := match v with Coordinates => s_coords b | Velocity => s_vel b | Acceleration => s_acc b end.
