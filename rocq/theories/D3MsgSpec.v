(** * What the messages of the readers say *)
From Verif Require Import CBase BinModel D3BufModel D3Model D3ReadModel D3MsgModel.
Open Scope nat_scope.

(** The functions of D3ReadModel.v behind the calls. *)
Definition c_call (pl : plot) (c : call) : res (plot * list Z) :=
  match c with
  | Title => read_title pl
  | Run_time => do ' (pl, v) <- read_epoch_run_time pl; OK (pl, [v])
  | Node_ids => read_node_ids pl
  | Solid_ids => read_solid_element_ids pl
  | Beam_ids => read_beam_element_ids pl
  | Shell_ids => read_shell_element_ids pl
  | Thick_shell_ids => read_thick_shell_element_ids pl
  | Time state => do ' (pl, v) <- read_time pl state; OK (pl, match v with Some v => [v] | None => [] end)
  end.
(** [None]: the call reports an error; the run time is then 0. *)
Definition shown (c : call) (r : option (list Z)) : list Z :=
  match r with Some l => l | None => match c with Run_time => [0%Z] | _ => [] end end.

(** The error strings are there exactly if there is an error. *)
Definition texts_ok (pl : tplot) : Prop :=
  (d_err (pl_buf (tp pl)) = None <-> tp_btext pl = None) /\ (pl_err (tp pl) = None <-> tp_text pl = None).

(** What a read of the family [files] can say: about the words, or about their position.
    A file that is named by its number is there and cannot be opened. *)
Inductive read_message (why : cstr) (files : list dfile) : derr -> cstr -> Prop :=
| Says_read : read_message why files E_read (bs "Read Error")
| Says_too_much : read_message why files E_too_much (bs "Requested too much words")
| Says_next i f : nth_error files i = Some f -> f_ok f = false -> read_message why files E_switch (bs "Error when switching to next file: Failed to open next file(" ++ TimedModel.nat_string i ++ bs "): " ++ why).
Inductive seek_message (why : cstr) (files : list dfile) : derr -> cstr -> Prop :=
| Says_out : seek_message why files E_oob (bs "Out of bounds")
| Says_seek : seek_message why files E_seek (bs "Seek Error")
| Says_open i f : nth_error files i = Some f -> f_ok f = false -> seek_message why files E_open_next (bs "Failed to open next file(" ++ TimedModel.nat_string i ++ bs "): " ++ why).
(** A read of words at [pos] says [m] for the error [e]: that of the read, or the one of
    the seek to [pos]. *)
Definition first_message (why : cstr) (b : dbuf) (pos : Z) (e : derr) (m : cstr) : Prop :=
  read_message why (d_files b) e m \/
  e = E_seek_failed /\ exists b' p k s, seek b pos = OK (b', p) /\ d_err b' = Some k /\ seek_message why (d_files b) k s /\ m = bs "Failed to seek the buffer: " ++ s.

(** The number of words a call asks for and their position. *)
Definition request (pl : plot) (c : call) : option (Z * Z) :=
  let ids n k := if (n =? 0)%Z then None else Some (n, pl_ptr pl k) in
  match c with
  | Title => Some (10%Z, pl_ptr pl K_TITLE)
  | Run_time => Some (1%Z, pl_ptr pl K_RUN_TIME)
  | Node_ids => ids (pl_cd pl NUMNP) K_NODE_IDS
  | Solid_ids => ids (u64 (pl_cd pl NEL8)) K_EL8_IDS
  | Beam_ids => ids (pl_cd pl NEL2) K_EL2_IDS
  | Shell_ids => ids (pl_cd pl NEL4) K_EL4_IDS
  | Thick_shell_ids => ids (pl_cd pl NELT) K_ELT_IDS
  | Time state => match state_at pl state with Some s => Some (1%Z, u64 (s + pl_ptr pl K_STATE_TIME)) | None => None end
  end.
(** A call that reads words from a position inside of the files. *)
Definition inside (pl : plot) (c : call) : Prop :=
  exists n pos p, request pl c = Some (n, pos) /\ seek (clear_err (pl_buf pl)) pos = OK (clear_err (pl_buf pl), p).

(** "Failed to seek the buffer: ", [n] times. *)
Fixpoint again (n : nat) (m : cstr) : cstr := match n with O => m | S n => bs "Failed to seek the buffer: " ++ again n m end.

(** The table of d3_defines.h:226-242. *)
Definition file_types : list (Z * cstr) :=
  [(1, bs "d3plot"); (2, bs "d3drlf"); (3, bs "d3thdt"); (4, bs "intfor"); (5, bs "d3part"); (6, bs "blstfor"); (7, bs "d3cpm"); (8, bs "d3ale");
   (11, bs "d3eigv"); (12, bs "d3mode"); (13, bs "d3iter"); (21, bs "d3ssd"); (22, bs "d3spcm"); (23, bs "d3psd"); (24, bs "d3rms"); (25, bs "d3ftg"); (26, bs "d3acs")]%Z.
