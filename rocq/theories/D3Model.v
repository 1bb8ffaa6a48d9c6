(** * Model of d3plot_open: /repo/src/d3plot.c, d3plot_data.c, d3plot_state.c

    A [d3_word] is a [Z] in 0..2^64-1.  The control data is a map from fields to
    values.  Not modelled: the texts of error messages (one constructor per
    message instead), allocation failure, profiling.  Signed overflow of
    computations with a negative NEL8 is not flagged (they are computed modulo
    2^64). *)
From Verif Require Import CBase BinModel D3BufModel.

(** d3plot.h:35-120, and the locals icode, npefg, idtdt and extra of d3plot_open.
    ISTRN is separate ([pl_istrn]): it can be uninitialised. *)
Inductive field : Type :=
| NDIM | NUMNP | ICODE | NGLBV | IT | IU | IV | IA | NEL8 | NUMMAT8 | NUMDS | NUMST | NV3D | NEL2 | NUMMAT2 | NV1D | NEL4 | NUMMAT4 | NV2D
| NEIPH | NEIPS | MAXINT | NMSPH | NARBS | NELT | NUMMATT | NV3DT | IOSHL0 | IOSHL1 | IOSHL2 | IOSHL3 | IALEMAT | NCFDV1 | NADAPT | NMMAT
| NPEFG | NEL48 | IDTDT | EXTRA
| NEL20 | NT3D | NEL27 | NEIPB | NEL21P | NEL15T | SOLENG | NEL20T | NEL40P | NEL64 | QUADR | CUBIC | TSHENG | NBRANCH | PENOUT | ENGOUT | BEMENG | KINENG | NPART
| NUMRBS | BEAMIP | MDLOPT | IOSOL0 | IOSOL1 | PACKED.
Scheme Equality for field.
Definition cdata : Type := field -> Z.
Definition upd (c : cdata) (f : field) (v : Z) : cdata := fun g => if field_beq f g then v else c g.

(** d3_defines.h:249-272 *)
Inductive dkind : Type :=
| K_TITLE | K_RUN_TIME | K_NODE_COORDS | K_NODE_IDS | K_EL8_IDS | K_EL2_IDS | K_EL4_IDS | K_ELT_IDS | K_PART_IDS
| K_EL8_CONNECT | K_ELT_CONNECT | K_EL2_CONNECT | K_EL4_CONNECT | K_PART_TITLES
| K_STATE_TIME | K_STATE_NODE_COORDS | K_STATE_NODE_VEL | K_STATE_NODE_ACC | K_STATE_SOLID | K_STATE_THICK_SHELL | K_STATE_BEAM | K_STATE_SHELL.
Scheme Equality for dkind.

Inductive perr : Type :=
| P_buffer (e : derr)       (* d3plot.c:69 *)
| P_file_type               (* d3plot.c:95 *)
| P_control                 (* d3plot.c:217 *)
| P_ndim | P_idtdt | P_maxint | P_order | P_neips | P_maxint_large
| P_mattyp | P_ialemat | P_nmsph | P_npefg | P_numds | P_numst | P_it      (* d3plot.c:243-387 *)
| P_packed                  (* d3plot_data.c:51 *)
| P_skip                    (* d3plot_data.c: "Failed to skip words" *)
| P_nsort | P_nsortd        (* d3plot_data.c:130, 147 *)
| P_sanity                  (* d3plot_data.c:156-190, 243 *)
| P_numrbs                  (* d3plot_data.c:204 *)
| P_eof                     (* d3plot.c:427, d3plot_data.c:441 *)
| P_header                  (* d3plot_data.c:355-424 *)
| P_extra_types | P_few_files | P_next_file                                 (* d3plot.c:438-447, 460 *)
| P_time | P_global | P_nodedata | P_elemdata | P_mdlopt                    (* d3plot_state.c:52, 177, 244, 288, 304 *)
| P_node_data | P_state | P_words | P_part_ids | P_part | P_no_parts | P_part_id | P_beam                     (* readers *)
.

(** d3plot.h:33-133; [pl_states] are data_pointers[D3PLT_PTR_STATES ..].
    [pl_initial] is initial_node_coords (raw words). *)
Record plot : Type := { pl_buf : dbuf; pl_cd : cdata; pl_istrn : option Z; pl_ptr : dkind -> Z; pl_states : list Z; pl_err : option perr; pl_initial : option (list Z) }.
Definition with_buf (pl : plot) (b : dbuf) : plot := {| pl_buf := b; pl_cd := pl_cd pl; pl_istrn := pl_istrn pl; pl_ptr := pl_ptr pl; pl_states := pl_states pl; pl_err := pl_err pl; pl_initial := pl_initial pl |}.
Definition with_cd (pl : plot) (c : cdata) : plot := {| pl_buf := pl_buf pl; pl_cd := c; pl_istrn := pl_istrn pl; pl_ptr := pl_ptr pl; pl_states := pl_states pl; pl_err := pl_err pl; pl_initial := pl_initial pl |}.
Definition with_istrn (pl : plot) (v : option Z) : plot := {| pl_buf := pl_buf pl; pl_cd := pl_cd pl; pl_istrn := v; pl_ptr := pl_ptr pl; pl_states := pl_states pl; pl_err := pl_err pl; pl_initial := pl_initial pl |}.
Definition with_ptr (pl : plot) (k : dkind) (v : Z) : plot := {| pl_buf := pl_buf pl; pl_cd := pl_cd pl; pl_istrn := pl_istrn pl; pl_ptr := (fun j => if dkind_beq k j then v else pl_ptr pl j); pl_states := pl_states pl; pl_err := pl_err pl; pl_initial := pl_initial pl |}.
Definition add_state (pl : plot) (v : Z) : plot := {| pl_buf := pl_buf pl; pl_cd := pl_cd pl; pl_istrn := pl_istrn pl; pl_ptr := pl_ptr pl; pl_states := pl_states pl ++ [v]; pl_err := pl_err pl; pl_initial := pl_initial pl |}.
Definition fail (pl : plot) (e : perr) : plot := {| pl_buf := pl_buf pl; pl_cd := pl_cd pl; pl_istrn := pl_istrn pl; pl_ptr := pl_ptr pl; pl_states := pl_states pl; pl_err := Some e; pl_initial := pl_initial pl |}.

(** The cursor: the buffer and the pointer into it. *)
Notation cur := (dbuf * dptr)%type (only parsing).
(** Reading one word into a variable that was set to 0 before. *)
Definition word (c : cur) : res (cur * Z) :=
  do ' (b, p, d) <- read_words (fst c) (snd c) 1; OK ((b, p), le_value d).
Definition skip (c : cur) (n : Z) : res cur := skip_words (fst c) (snd c) n.
Definition skipb (c : cur) (n : Z) : res cur := skip_bytes (fst c) (snd c) n.
Definition err (c : cur) : bool := match d_err (fst c) with Some _ => true | None => false end.
Definition cw (c : cur) : Z := p_word (snd c).
Fixpoint skips (c : cur) (ns : list Z) : res cur :=
  match ns with [] => OK c | n :: r => do c <- skip c n; skips c r end.

(** int32_t / int64_t of a word (d3plot.c:42-50). *)
Definition s32 (z : Z) : Z := let u := (z mod 2 ^ 32)%Z in if (u <? 2 ^ 31)%Z then u else (u - 2 ^ 32)%Z.
Definition signed (ws z : Z) : Z := if (ws =? 4)%Z then s32 z else s64 z.

(** D3_EOF (-999999.0) as the bits of a float / double: the only bit patterns
    that compare equal to it. *)
Definition EOF32 : Z := 0xC97423F0.
Definition EOF64 : Z := 0xC12E847E00000000.
Definition is_eof (ws v : Z) : bool := (v =? if (ws =? 4)%Z then EOF32 else EOF64)%Z.

(** d3plot.c:3123-3139: the loop with its counter [i] and last_value. *)
Fixpoint nth_digit_loop (fuel : nat) (value : Z) (i n : Z) : res Z :=
  match fuel with
  | O => OOF
  | S fuel =>
    let last_value := value in
    let value := (value / 10)%Z in
    if (i =? n)%Z then OK (u64 (last_value - u64 (value * 10)))
    else nth_digit_loop fuel value (i + 1)%Z n
  end.
Definition nth_digit (value n : Z) : res Z := nth_digit_loop (S (Z.to_nat n)) value 0 n.

(** The reads of the control data (d3plot.c:37-53): [R]
    READ_CONTROL_DATA_(PLOT_FILE_)WORD, [RS] the signed version, [SK] a skip. *)
Inductive op : Type := R (f : field) | RS (f : field) | SK (n : Z).
Definition run_op (c : cur) (cd : cdata) (o : op) : res (cur * cdata) :=
  match o with
  | R f => do ' (c, v) <- word c; OK (c, upd cd f v)
  | RS f => do ' (c, v) <- word c; OK (c, upd cd f (signed (d_ws (fst c)) v))
  | SK n => do c <- skip c n; OK (c, cd)
  end.
Fixpoint run_ops (c : cur) (cd : cdata) (os : list op) : res (cur * cdata) :=
  match os with
  | [] => OK (c, cd)
  | o :: r => do ' (c, cd) <- run_op c cd o; run_ops c cd r
  end.
(** d3plot.c:101-153 *)
Definition control_ops : list op :=
  [SK 1; SK 1; SK 1; R NDIM; R NUMNP; R ICODE; R NGLBV; R IT; R IU; R IV; R IA; RS NEL8; R NUMMAT8; R NUMDS; R NUMST; R NV3D;
   R NEL2; R NUMMAT2; R NV1D; R NEL4; R NUMMAT4; R NV2D; R NEIPH; R NEIPS; RS MAXINT; R NMSPH; SK 1; R NARBS; R NELT; R NUMMATT; R NV3DT;
   R IOSHL0; R IOSHL1; R IOSHL2; R IOSHL3; R IALEMAT; R NCFDV1; SK 1; R NADAPT; R NMMAT; SK 1; SK 1; R NPEFG; R NEL48; R IDTDT; R EXTRA; SK 6].
(** d3plot.c:158-177 *)
Definition extra_ops : list op :=
  [R NEL20; R NT3D; R NEL27; R NEIPB; R NEL21P; R NEL15T; R SOLENG; R NEL20T; R NEL40P; R NEL64; R QUADR; R CUBIC; R TSHENG; R NBRANCH; R PENOUT; R ENGOUT; R BEMENG; R KINENG].
(** d3plot.c:193-211 *)
Definition no_extra (cd : cdata) : cdata :=
  fold_left (fun c f => upd c f 0%Z)
    [NEL20; NT3D; NEL27; NEIPB; NEL21P; NEL15T; SOLENG; NEL20T; NEL40P; NEL64; QUADR; CUBIC; TSHENG; NBRANCH; PENOUT; ENGOUT; BEMENG; KINENG; NPART] cd.

(** d3plot.c:101-212 *)
Definition read_control (c : cur) (cd : cdata) : res (cur * cdata) :=
  do ' (c, cd) <- run_ops c cd control_ops;
  if (0 <? cd EXTRA)%Z then
    do ' (c, cd) <- run_ops c cd extra_ops;
    do c <- skip c (u64 (cd EXTRA - 18));
    if (0 <? cd QUADR)%Z || (0 <? cd CUBIC)%Z then
      do ' (c, v) <- word c;
      let cd := upd cd NPART v in
      do c <- skips c (repeat 9%Z (Z.to_nat v));
      OK (c, cd)
    else OK (c, upd cd NPART 0%Z)
  else OK (c, no_extra cd).

(** d3plot.c:222: integer division by zero is undefined. *)
Definition beamip (cd : cdata) : res Z :=
  let d := u64 (5 + cd NEIPB) in
  if (d =? 0)%Z then UB else OK (u64 (cd NV1D - 6 - u64 (cd NEIPB * 3)) / d)%Z.

(** d3plot.c:225-239: (mattyp, ndim, element_connectivity_packed). *)
Definition dims (ndim : Z) : bool * Z * Z :=
  (if (ndim =? 5) || (ndim =? 7) then (true, 3, 0)
   else if ndim =? 3 then (false, ndim, 1)
   else (false, (if ndim =? 4 then 3 else ndim), 0))%Z.

(** d3plot.c:247-269 *)
Definition ioshl (v : Z) : Z := if (v =? 1000)%Z then 1 else 0.
Definition iosol (v : Z) : Z := if ((v =? 1000) || (v =? 999))%Z then 1 else 0.

(** d3plot.c:299-310: (mdlopt, maxint). *)
Definition mdl (maxint : Z) : Z * Z :=
  (if 0 <=? maxint then (0, maxint)
   else if maxint <? -10000 then (2, maxint * -1 - 10000)
   else (1, maxint * -1))%Z.

(** d3plot.c:312-341 on the computed IOSHL and MAXINT. *)
Definition istrn (cd : cdata) : res (option Z) :=
  let per_ip := u64 (cd MAXINT * (6 * cd IOSHL0 + cd IOSHL1 + cd NEIPS)) in
  if (cd IDTDT <? 100)%Z then
    if (0 <? cd NV2D)%Z then
      let rhs := u64 (per_ip + 8 * cd IOSHL2 + 4 * cd IOSHL3) in
      OK (Some (if (u64 (rhs + 1) <? cd NV2D)%Z then 1 else 0)%Z)
    else if (0 <? cd NELT)%Z then OK (Some (if (1 <? u64 (cd NV3DT - per_ip))%Z then 1 else 0)%Z)
    else OK None
  else do d <- nth_digit (cd IDTDT) 4; OK (Some (u8 d)).

Fixpoint first_error (l : list (bool * perr)) : option perr :=
  match l with
  | [] => None
  | (true, e) :: _ => Some e
  | (false, _) :: r => first_error r
  end.

(** d3plot.c:222-387: the derived values and the checks. *)
Definition derive (cd : cdata) : res (cdata * option Z * option perr) :=
  do bi <- beamip cd;
  let cd := upd cd BEAMIP bi in
  let '(mattyp, nd, packed) := dims (cd NDIM) in
  let cd := upd (upd cd NDIM nd) PACKED packed in
  if negb (nd =? 3)%Z then OK (cd, None, Some P_ndim) else
  let cd := upd (upd cd IOSOL0 (iosol (cd IOSHL0))) IOSOL1 (iosol (cd IOSHL1)) in
  let cd := upd (upd (upd (upd cd IOSHL0 (ioshl (cd IOSHL0))) IOSHL1 (ioshl (cd IOSHL1))) IOSHL2 (ioshl (cd IOSHL2))) IOSHL3 (ioshl (cd IOSHL3)) in
  do d0 <- nth_digit (cd IDTDT) 0;
  do d1 <- nth_digit (cd IDTDT) 1;
  do d2 <- nth_digit (cd IDTDT) 2;
  do d3 <- nth_digit (cd IDTDT) 3;
  match first_error [((d0 =? 1)%Z, P_idtdt); ((d1 =? 1)%Z, P_idtdt); ((d2 =? 1)%Z, P_idtdt); ((d3 =? 1)%Z, P_idtdt)] with
  | Some e => OK (cd, None, Some e)
  | None =>
    if (cd MAXINT =? - 2 ^ 63)%Z then UB (* maxint * -1 overflows *) else
    let '(mo, mi) := mdl (cd MAXINT) in
    let cd := upd (upd cd MDLOPT mo) MAXINT mi in
    do is <- istrn cd;
    OK (cd, is, first_error
      [(negb ((cd ICODE =? 2) || (cd ICODE =? 6))%Z, P_order);
       ((255 <? cd NEIPS)%Z, P_neips);
       ((255 <? cd MAXINT)%Z, P_maxint_large);
       (mattyp, P_mattyp);
       (negb (cd IALEMAT =? 0)%Z, P_ialemat);
       (negb (cd NMSPH =? 0)%Z, P_nmsph);
       (negb (cd NPEFG =? 0)%Z, P_npefg);
       (negb (cd NUMDS =? 0)%Z, P_numds);
       (negb (cd NUMST =? 0)%Z, P_numst);
       (negb (cd IT =? 0)%Z, P_it)])
  end.

(** Result of a section function: the cursor, the plot, and the return value. *)
Notation sect := (res (cur * plot * Z)) (only parsing).
Definition sfail (c : cur) (pl : plot) (e : perr) : sect := OK (c, fail pl e, 0%Z).
Definition u64add (a c : Z) : Z := u64 (a + c).

(** d3plot_data.c:42-100 *)
Definition geometry (c : cur) (pl : plot) : sect :=
  let cd := pl_cd pl in
  let start := cw c in
  if negb (cd PACKED =? 0)%Z then sfail c pl P_packed else
  let pl := with_ptr pl K_NODE_COORDS start in
  let dp := u64 (start + cd NUMNP * cd NDIM) in
  let pl := with_ptr pl K_EL8_CONNECT dp in
  let '(nel8, dp) := if (0 <? cd NEL8)%Z then (cd NEL8, dp) else (- cd NEL8, u64 (dp + 2 * (- cd NEL8)))%Z in
  let dp := u64 (dp + 9 * nel8) in
  let '(pl, dp) := if (0 <? cd NELT)%Z then (with_ptr pl K_ELT_CONNECT dp, u64 (dp + 9 * cd NELT)) else (pl, dp) in
  let '(pl, dp) := if (0 <? cd NEL2)%Z then (with_ptr pl K_EL2_CONNECT dp, u64 (dp + 6 * cd NEL2)) else (pl, dp) in
  let '(pl, dp) := if (0 <? cd NEL4)%Z then (with_ptr pl K_EL4_CONNECT dp, u64 (dp + 5 * cd NEL4)) else (pl, dp) in
  do c <- skip c (u64 (dp - start));
  if err c then sfail c pl P_skip else OK (c, pl, 1%Z).

(** d3plot_data.c:102-251 *)
Definition user_ids (c : cur) (pl : plot) : sect :=
  let cd := pl_cd pl in
  if (cd NARBS =? 0)%Z then OK (c, with_cd pl (upd cd NUMRBS 0), 1%Z) else
  let start := cw c in
  do ' (c, nsort) <- word c;
  let nsort := signed (d_ws (fst c)) nsort in
  if err c then sfail c pl P_nsort else
  do c <- skip c 4;
  do ' (c, nsortd) <- word c;
  do ' (c, nsrhd) <- word c;
  do ' (c, nsrbd) <- word c;
  do ' (c, nsrsd) <- word c;
  do ' (c, nsrtd) <- word c;
  if err c then sfail c pl P_nsortd else
  if negb (nsortd =? cd NUMNP)%Z then sfail c pl P_sanity else
  if negb (nsrhd =? u64 (cd NEL8))%Z then sfail c pl P_sanity else
  if negb (nsrbd =? cd NEL2)%Z then sfail c pl P_sanity else
  if negb (nsrsd =? cd NEL4)%Z then sfail c pl P_sanity else
  if negb (nsrtd =? cd NELT)%Z then sfail c pl P_sanity else
  let cd := upd cd NUMRBS 0%Z in
  do ' (c, cd, nmmat, bad) <-
    (if (nsort <? 0)%Z then
       do c <- skip c 4;
       do ' (c, numrbs) <- word c;
       do ' (c, nmmat) <- word c;
       OK (c, upd cd NUMRBS numrbs, nmmat, err c)
     else OK (c, cd, cd NMMAT, false));
  let pl := with_cd pl cd in
  if (bad : bool) then sfail c pl P_numrbs else
  let dstart := cw c in
  let dp := dstart in
  let pl := with_ptr pl K_NODE_IDS dp in
  let dp := u64 (dp + nsortd) in
  let pl := with_ptr pl K_EL8_IDS dp in
  let dp := u64 (dp + nsrhd) in
  let pl := with_ptr pl K_EL2_IDS dp in
  let dp := u64 (dp + nsrbd) in
  let pl := with_ptr pl K_EL4_IDS dp in
  let dp := u64 (dp + nsrsd) in
  let pl := with_ptr pl K_ELT_IDS dp in
  let dp := u64 (dp + nsrtd) in
  let pl := if (nsort <? 0)%Z then with_ptr pl K_PART_IDS dp else pl in
  let dp := u64 (dp + 3 * nmmat) in
  do c <- skip c (u64 (dp - dstart));
  if err c then sfail c pl P_skip else
  if negb (u64 (cw c - start) =? cd NARBS)%Z then sfail c pl P_sanity else OK (c, pl, 1%Z).

(** d3plot_data.c:253-322 *)
Definition extra_connectivity (c : cur) (pl : plot) : sect :=
  let cd := pl_cd pl in
  let on (g : bool) (v : Z) : Z := if g then v else 0%Z in
  let q := (0 <? cd QUADR)%Z in
  let k := (0 <? cd CUBIC)%Z in
  let n := u64 (on (cd NEL8 <? 0)%Z (2 * (- cd NEL8)) + on (0 <? cd NEL48) (5 * cd NEL48) + on (0 <? cd NEL20) (13 * cd NEL20) +
                on ((0 <? cd NEL27) && q) (28 * cd NEL27) + on ((0 <? cd NEL21P) && q) (22 * cd NEL21P) + on ((0 <? cd NEL15T) && q) (16 * cd NEL15T) +
                on ((0 <? cd NEL20T) && k) (21 * cd NEL20T) + on ((0 <? cd NEL40P) && k) (41 * cd NEL40P) + on ((0 <? cd NEL64) && k) (65 * cd NEL64))%Z in
  do c <- skip c n;
  if err c then sfail c pl P_skip else OK (c, pl, 1%Z).

(** d3plot_data.c:324-345 *)
Definition adapted_parents (c : cur) (pl : plot) : sect :=
  let cd := pl_cd pl in
  if (cd NADAPT =? 0)%Z then OK (c, pl, 1%Z) else
  do c <- skip c (u64 (2 * cd NADAPT));
  if err c then sfail c pl P_skip else OK (c, pl, 1%Z).

(** d3plot_data.c:347-454 *)
Fixpoint header (fuel : nat) (c : cur) (pl : plot) : sect :=
  match fuel with
  | O => OOF
  | S fuel =>
    do ' (c, ntype) <- word c;
    let ws := d_ws (fst c) in
    if err c then sfail c pl P_header else
    if (ntype =? 90000)%Z then
      do c <- skipb c 72;
      if err c then sfail c pl P_header else header fuel c pl
    else if (ntype =? 90001)%Z then
      do ' (c, numprop) <- word c;
      if err c then sfail c pl P_header else
      let pl := with_ptr pl K_PART_TITLES (cw c) in
      do c <- skipb c (u64 ((ws + 72) * numprop));
      if err c then sfail c pl P_header else header fuel c pl
    else if (ntype =? 90002)%Z then
      do ' (c, numcon) <- word c;
      if err c then sfail c pl P_header else
      do c <- skipb c (u64 ((ws + 72) * numcon));
      if err c then sfail c pl P_header else header fuel c pl
    else if (ntype =? 900100)%Z then
      do ' (c, nline) <- word c;
      if err c then sfail c pl P_header else
      do c <- skipb c (u64 (80 * nline));
      if err c then sfail c pl P_header else header fuel c pl
    else if is_eof ws ntype then OK (c, pl, 1%Z) else sfail c pl P_eof
  end.

(** d3plot_state.c:35-37 *)
Definition set_state_ptr (pl : plot) (k : dkind) (v : Z) : plot :=
  match pl_states pl with [] => with_ptr pl k v | _ :: _ => pl end.
(** The error is dropped: d3plot_state.c:146-150 etc. *)
Definition quiet (c : cur) (pl : plot) : sect := OK ((clear_err (fst c), snd c), pl, 0%Z).

(** One nodal vector of a state that starts at [start]. *)
Definition state_vec (start : Z) (c : cur) (pl : plot) (f : field) (k : dkind) : res (cur * plot) :=
  if negb (pl_cd pl f =? 0)%Z then
    do c' <- skip c (u64 (3 * pl_cd pl NUMNP)); OK (c', set_state_ptr pl k (u64 (cw c - start)))
  else OK (c, pl).
(** The values of one kind of elements. *)
Definition state_elem (start : Z) (c : cur) (pl : plot) (k : dkind) (n : Z) : res (cur * plot) :=
  do c' <- skip c (u64 n); OK (c', set_state_ptr pl k (u64 (cw c - start))).
(** d3plot_state.c:42-333 *)
Definition read_state (c : cur) (pl : plot) : sect :=
  let cd := pl_cd pl in
  let start := cw c in
  do ' (c, time) <- word c;
  if err c then sfail c pl P_time else
  if is_eof (d_ws (fst c)) time then OK (c, pl, 2%Z) else
  let global_start := cw c in
  let mats := [cd NUMMAT8; cd NUMMAT2; cd NUMMAT4; cd NUMMATT; cd NUMRBS] in
  do c <- skips c (6%Z :: mats ++ mats ++ mats ++ mats ++ mats ++ mats ++ mats);
  if err c then quiet c pl else
  let numrw := u64 (cd NGLBV - 6 - 7 * (cd NUMMAT8 + cd NUMMAT2 + cd NUMMAT4 + cd NUMMATT + cd NUMRBS)) in
  do c <- skip c numrw;
  if err c then quiet c pl else
  if negb (u64 (cw c - global_start) =? cd NGLBV)%Z then sfail c pl P_global else
  let node_start := cw c in
  do it0 <- nth_digit (cd IT) 0;
  do it1 <- nth_digit (cd IT) 1;
  let N0 := (if 1 <? it0 then it0 else 0)%Z in
  let '(it, N) := if (N0 =? 2)%Z then (1, 3)%Z else (it0, N0) in
  let mass_N := (if it1 =? 1 then 1 else 0)%Z in
  let NND := u64 ((it + N + mass_N + cd NDIM * (cd IU + cd IV + cd IA)) * cd NUMNP) in
  do c <- (if (0 <? it)%Z then skip c (u64 (it * cd NUMNP)) else OK c);
  do c <- (if (0 <? N)%Z then skip c (u64 (N * cd NUMNP)) else OK c);
  do c <- (if (0 <? mass_N)%Z then skip c (cd NUMNP) else OK c);
  do ' (c, pl) <- state_vec start c pl IU K_STATE_NODE_COORDS;
  do ' (c, pl) <- state_vec start c pl IV K_STATE_NODE_VEL;
  do ' (c, pl) <- state_vec start c pl IA K_STATE_NODE_ACC;
  if err c then quiet c pl else
  if negb (u64 (cw c - node_start) =? NND)%Z then sfail c pl P_nodedata else
  do c <- skip c (u64 (cd NT3D * cd NEL8));
  if err c then quiet c pl else
  let ENN := u64 (cd NEL8 * cd NV3D + cd NELT * cd NV3DT + cd NEL2 * cd NV1D + cd NEL4 * cd NV2D) in
  let elem_start := cw c in
  do ' (c, pl) <- state_elem start c pl K_STATE_SOLID (cd NV3D * cd NEL8)%Z;
  do ' (c, pl) <- state_elem start c pl K_STATE_BEAM (cd NV1D * cd NEL2)%Z;
  do ' (c, pl) <- state_elem start c pl K_STATE_SHELL (cd NV2D * cd NEL4)%Z;
  do ' (c, pl) <- state_elem start c pl K_STATE_THICK_SHELL (cd NV3DT * cd NELT)%Z;
  if err c then quiet c pl else
  if (u64 (cw c - elem_start) <? ENN)%Z then sfail c pl P_elemdata else
  let deletion : option Z :=
    if (cd MDLOPT =? 0)%Z then Some 0%Z
    else if (cd MDLOPT =? 1)%Z then Some (cd NUMNP)
    else if (cd MDLOPT =? 2)%Z then Some (u64 (cd NEL8 + cd NELT + cd NEL4 + cd NEL2))
    else None in
  match deletion with
  | None => sfail c pl P_mdlopt
  | Some n =>
    do c <- (if (0 <? n)%Z then skip c n else OK c);
    if err c then quiet c pl else OK (c, add_state pl start, 1%Z)
  end.

(** ERROR_AND_RETURN (d3plot_error_macros.h:43-49): the pointer is closed first. *)
Definition error_and_return (c : cur) (pl : plot) (e : perr) : res plot :=
  do _ <- pointer_close (fst c) (snd c); OK (with_buf (fail pl e) (fst c)).

(** d3plot.c:450-463 *)
Fixpoint state_loop (fuel : nat) (c : cur) (pl : plot) : res plot :=
  match fuel with
  | O => OOF
  | S fuel =>
    do ' (c, pl, result) <- read_state c pl;
    if (result =? 0)%Z then OK (with_buf pl (fst c))
    else if (result =? 2)%Z then
      do ' (b, p, ok) <- next_file (fst c) (snd c);
      if negb ok then OK (with_buf pl b)
      else if err (b, p) then error_and_return (b, p) pl P_next_file
      else state_loop fuel (b, p) pl
    else state_loop fuel c pl
  end.

Definition start_plot (b : dbuf) : plot :=
  {| pl_buf := b; pl_cd := fun _ => 0%Z; pl_istrn := None; pl_ptr := fun _ => 0%Z; pl_states := []; pl_err := None; pl_initial := None |}.
Definition loop_fuel (b : dbuf) : nat := S (length (concat (map f_bytes (d_files b))) + length (d_files b)).

(** d3plot.c:411-466: everything behind the adapted element parent list. *)
Definition open_tail (c : cur) (pl : plot) : res plot :=
  do ' (c, marker) <- word c;
  if err c then UB (* eof_marker is uninitialised *) else
  if negb (is_eof (d_ws (fst c)) marker) then error_and_return c pl P_eof else
  do ' (c, pl, r) <- header (loop_fuel (fst c)) c pl;
  if (r =? 0)%Z then OK (with_buf pl (fst c)) else
  if (pl_cd pl NCFDV1 =? 67108864)%Z then error_and_return c pl P_extra_types else
  do ' (b, p, ok) <- next_file (fst c) (snd c);
  if negb ok then error_and_return (b, p) pl P_few_files else
  if err (b, p) then error_and_return (b, p) pl P_next_file else
  state_loop (loop_fuel b) (b, p) pl.

(** d3plot.c:389-410 *)
Definition open_sections (c : cur) (pl : plot) : res plot :=
  do ' (c, pl, r) <- geometry c pl;
  if (r =? 0)%Z then OK (with_buf pl (fst c)) else
  do ' (c, pl, r) <- user_ids c pl;
  if (r =? 0)%Z then OK (with_buf pl (fst c)) else
  do ' (c, pl, r) <- extra_connectivity c pl;
  if (r =? 0)%Z then OK (with_buf pl (fst c)) else
  do ' (c, pl, r) <- adapted_parents c pl;
  if (r =? 0)%Z then OK (with_buf pl (fst c)) else
  open_tail c pl.

(** d3plot.c:56-466.  (NMSPH, NPEFG and NDIM were checked before 411-424.) *)
Definition open_buffer (b : dbuf) : res plot :=
  do c <- seek b 0;
  do c <- skip c 10;
  let pl := with_ptr (start_plot b) K_RUN_TIME (cw c) in
  do c <- skip c 1;
  do ' (c, ft) <- word c;
  let file_type := (if 1000 <? ft then ft - 1000 else ft)%Z in
  if negb (file_type =? 1)%Z then error_and_return c pl P_file_type else
  do ' (c, cd) <- read_control c (pl_cd pl);
  if err c then error_and_return c pl P_control else
  do ' (cd, is, e) <- derive cd;
  let pl := with_istrn (with_cd pl cd) is in
  match e with
  | Some e => error_and_return c pl e
  | None => open_sections c pl
  end.
Definition d3plot_open (fs : list Z -> option dfile) (root : list Z) : res plot :=
  do b <- open fs root;
  match d_err b with
  | Some e => OK (fail (start_plot (clear_err b)) (P_buffer e))
  | None => open_buffer b
  end.
