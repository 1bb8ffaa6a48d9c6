(** * The d3plot format: where everything is *)
From Verif Require Import CBase BinModel D3BufModel D3BufSpec D3Model.
Open Scope Z_scope.

(** Word [i] of the data. *)
Definition wd (b : dbuf) (i : Z) : Z := word_at b (d_ws b) i.
(** Word [i] exists / the data goes on behind word [i]. *)
Definition has (b : dbuf) (i : Z) : Prop := 0 <= i /\ (i + 1) * d_ws b <= total b.
Definition below (b : dbuf) (i : Z) : Prop := i * d_ws b < total b.
Definition bytes_ok (b : dbuf) : Prop := Forall (fun x => 0 <= x < 256) (all_bytes b).

(** ** Control data *)

(** The positions of the control words (LS-DYNA database manual, CONTROL DATA). *)
Definition control_pos (f : field) : option Z :=
  match f with
  | NDIM => Some 15 | NUMNP => Some 16 | ICODE => Some 17 | NGLBV => Some 18 | IT => Some 19 | IU => Some 20 | IV => Some 21 | IA => Some 22
  | NEL8 => Some 23 | NUMMAT8 => Some 24 | NUMDS => Some 25 | NUMST => Some 26 | NV3D => Some 27 | NEL2 => Some 28 | NUMMAT2 => Some 29 | NV1D => Some 30
  | NEL4 => Some 31 | NUMMAT4 => Some 32 | NV2D => Some 33 | NEIPH => Some 34 | NEIPS => Some 35 | MAXINT => Some 36 | NMSPH => Some 37
  | NARBS => Some 39 | NELT => Some 40 | NUMMATT => Some 41 | NV3DT => Some 42 | IOSHL0 => Some 43 | IOSHL1 => Some 44 | IOSHL2 => Some 45 | IOSHL3 => Some 46
  | IALEMAT => Some 47 | NCFDV1 => Some 48 | NADAPT => Some 50 | NMMAT => Some 51 | NPEFG => Some 54 | NEL48 => Some 55 | IDTDT => Some 56 | EXTRA => Some 57
  | _ => None
  end.
(** The positions of the words that exist only if EXTRA > 0. *)
Definition extra_pos (f : field) : option Z :=
  match f with
  | NEL20 => Some 64 | NT3D => Some 65 | NEL27 => Some 66 | NEIPB => Some 67 | NEL21P => Some 68 | NEL15T => Some 69 | SOLENG => Some 70 | NEL20T => Some 71
  | NEL40P => Some 72 | NEL64 => Some 73 | QUADR => Some 74 | CUBIC => Some 75 | TSHENG => Some 76 | NBRANCH => Some 77 | PENOUT => Some 78 | ENGOUT => Some 79
  | BEMENG => Some 80 | KINENG => Some 81
  | _ => None
  end.
(** The value of a control word: NEL8 and MAXINT are signed. *)
Definition cval (b : dbuf) (f : field) : Z :=
  match control_pos f with
  | Some i => match f with NEL8 | MAXINT => signed (d_ws b) (wd b i) | _ => wd b i end
  | None => match extra_pos f with Some i => if 0 <? wd b 57 then wd b i else 0 | None => 0 end
  end.
(** Higher order element parts: their number follows the EXTRA words. *)
Definition higher_order (b : dbuf) : bool := (0 <? cval b QUADR) || (0 <? cval b CUBIC).
Definition npart (b : dbuf) : Z := if higher_order b then wd b (64 + cval b EXTRA) else 0.
Definition control_end (b : dbuf) : Z := 64 + cval b EXTRA + (if higher_order b then 1 + 9 * npart b else 0).

(** Derived values. *)
Definition maxint_of (raw : Z) : Z := if raw <? -10000 then - raw - 10000 else Z.abs raw.
Definition mdlopt_of (raw : Z) : Z := if raw <? -10000 then 2 else if raw <? 0 then 1 else 0.
(** The decimal digit with weight 10^n. *)
Definition digit_of (v n : Z) : Z := v / 10 ^ n mod 10.
Definition per_ip (b : dbuf) : Z := maxint_of (cval b MAXINT) * (6 * ioshl (cval b IOSHL0) + ioshl (cval b IOSHL1) + cval b NEIPS).
Definition istrn_of (b : dbuf) : option Z :=
  if 100 <=? cval b IDTDT then Some (digit_of (cval b IDTDT) 4)
  else if 0 <? cval b NV2D then Some (if 1 <? cval b NV2D - (per_ip b + 8 * ioshl (cval b IOSHL2) + 4 * ioshl (cval b IOSHL3)) then 1 else 0)
  else if 0 <? cval b NELT then Some (if 1 <? cval b NV3DT - per_ip b then 1 else 0)
  else None.

(** ** Geometry and ids *)
Definition g_el8 (b : dbuf) : Z := control_end b + 3 * cval b NUMNP.
Definition g_elt (b : dbuf) : Z := g_el8 b + 9 * cval b NEL8.
Definition g_el2 (b : dbuf) : Z := g_elt b + 9 * cval b NELT.
Definition g_el4 (b : dbuf) : Z := g_el2 b + 6 * cval b NEL2.
Definition geometry_end (b : dbuf) : Z := g_el4 b + 5 * cval b NEL4.

(** The user ids: NSORT < 0 announces ids of the parts. *)
Definition has_ids (b : dbuf) : bool := negb (cval b NARBS =? 0).
Definition part_ids_present (b : dbuf) : bool := signed (d_ws b) (wd b (geometry_end b)) <? 0.
Definition ids_start (b : dbuf) : Z := geometry_end b + (if part_ids_present b then 16 else 10).
Definition ids_nmmat (b : dbuf) : Z := if part_ids_present b then wd b (geometry_end b + 15) else cval b NMMAT.
Definition numrbs (b : dbuf) : Z := if has_ids b && part_ids_present b then wd b (geometry_end b + 14) else 0.
Definition i_el8 (b : dbuf) : Z := ids_start b + cval b NUMNP.
Definition i_el2 (b : dbuf) : Z := i_el8 b + cval b NEL8.
Definition i_el4 (b : dbuf) : Z := i_el2 b + cval b NEL2.
Definition i_elt (b : dbuf) : Z := i_el4 b + cval b NEL4.
Definition i_parts (b : dbuf) : Z := i_elt b + cval b NELT.
Definition ids_end (b : dbuf) : Z := if has_ids b then i_parts b + 3 * ids_nmmat b else geometry_end b.
(** The id section agrees with the control data. *)
Definition ids_ok (b : dbuf) : Prop :=
  has_ids b = true ->
  wd b (geometry_end b + 5) = cval b NUMNP /\ wd b (geometry_end b + 6) = cval b NEL8 /\ wd b (geometry_end b + 7) = cval b NEL2 /\
  wd b (geometry_end b + 8) = cval b NEL4 /\ wd b (geometry_end b + 9) = cval b NELT /\ ids_end b - geometry_end b = cval b NARBS.

(** Node numbers of higher order elements and the adapted element parents. *)
Definition if_pos (g : Z) (v : Z) : Z := if 0 <? g then v else 0.
Definition extra_nodes (b : dbuf) : Z :=
  5 * cval b NEL48 + 13 * cval b NEL20 +
  if_pos (cval b QUADR) (28 * cval b NEL27 + 22 * cval b NEL21P + 16 * cval b NEL15T) +
  if_pos (cval b CUBIC) (21 * cval b NEL20T + 41 * cval b NEL40P + 65 * cval b NEL64).
Definition marker_pos (b : dbuf) : Z := ids_end b + extra_nodes b + 2 * cval b NADAPT.

(** The control data a plot reports after it has been opened. *)
Definition control_value (b : dbuf) (f : field) : Z :=
  match f with
  | NDIM => 3
  | IOSHL0 | IOSHL1 | IOSHL2 | IOSHL3 => ioshl (cval b f)
  | IOSOL0 => iosol (cval b IOSHL0) | IOSOL1 => iosol (cval b IOSHL1)
  | MAXINT => maxint_of (cval b MAXINT) | MDLOPT => mdlopt_of (cval b MAXINT)
  | BEAMIP => u64 (cval b NV1D - 6 - 3 * cval b NEIPB) / (5 + cval b NEIPB)
  | PACKED => 0 | NPART => npart b | NUMRBS => numrbs b
  | _ => cval b f
  end.

(** ** The header: titles, up to the end marker.  [blocks b pos t pos' t']: the
    blocks from [pos] to the end marker before [pos']; the part titles begin at
    [t] before and at [t'] after (0: nowhere). *)
Inductive blocks (b : dbuf) : Z -> Z -> Z -> Z -> Prop :=
| bl_end pos t : has b pos -> is_eof (d_ws b) (wd b pos) = true -> blocks b pos t (pos + 1) t
| bl_head pos t pos' t' : has b pos -> wd b pos = 90000 -> below b (pos + 1 + 72 / d_ws b) ->
    blocks b (pos + 1 + 72 / d_ws b) t pos' t' -> blocks b pos t pos' t'
| bl_parts pos t pos' t' : has b (pos + 1) -> 0 <= pos -> wd b pos = 90001 -> below b (pos + 2 + wd b (pos + 1) * (1 + 72 / d_ws b)) ->
    blocks b (pos + 2 + wd b (pos + 1) * (1 + 72 / d_ws b)) (pos + 2) pos' t' -> blocks b pos t pos' t'
| bl_contacts pos t pos' t' : has b (pos + 1) -> 0 <= pos -> wd b pos = 90002 -> below b (pos + 2 + wd b (pos + 1) * (1 + 72 / d_ws b)) ->
    blocks b (pos + 2 + wd b (pos + 1) * (1 + 72 / d_ws b)) t pos' t' -> blocks b pos t pos' t'
| bl_lines pos t pos' t' : has b (pos + 1) -> 0 <= pos -> wd b pos = 900100 -> below b (pos + 2 + wd b (pos + 1) * (80 / d_ws b)) ->
    blocks b (pos + 2 + wd b (pos + 1) * (80 / d_ws b)) t pos' t' -> blocks b pos t pos' t'.

(** ** States *)

(** The end of the file that contains word [i], in words; [false]: it is the
    last file of the family. *)
Definition file_end (b : dbuf) (i q : Z) (more : bool) : Prop :=
  exists pre f post, d_files b = pre ++ f :: post /\
    Z.of_nat (length (concat (map f_bytes pre))) <= i * d_ws b < Z.of_nat (length (concat (map f_bytes pre))) + f_size f /\
    q * d_ws b = Z.of_nat (length (concat (map f_bytes pre))) + f_size f /\ more = negb (match post with [] => true | _ => false end).

Definition flag (v : Z) : Z := if v =? 0 then 0 else 1.
(** The offsets of the tables inside of a state: the time, the global values,
    the nodal vectors, the element values, the deletion table. *)
Definition s_coords (b : dbuf) : Z := 1 + cval b NGLBV.
Definition s_vel (b : dbuf) : Z := s_coords b + 3 * cval b NUMNP * flag (cval b IU).
Definition s_acc (b : dbuf) : Z := s_vel b + 3 * cval b NUMNP * flag (cval b IV).
Definition s_therm (b : dbuf) : Z := s_acc b + 3 * cval b NUMNP * flag (cval b IA).
Definition s_solid (b : dbuf) : Z := s_therm b + cval b NT3D * cval b NEL8.
Definition s_beam (b : dbuf) : Z := s_solid b + cval b NV3D * cval b NEL8.
Definition s_shell (b : dbuf) : Z := s_beam b + cval b NV1D * cval b NEL2.
Definition s_tshell (b : dbuf) : Z := s_shell b + cval b NV2D * cval b NEL4.
Definition s_del (b : dbuf) : Z := s_tshell b + cval b NV3DT * cval b NELT.
Definition deletion (b : dbuf) : Z :=
  match mdlopt_of (cval b MAXINT) with 0 => 0 | 1 => cval b NUMNP | _ => cval b NEL8 + cval b NELT + cval b NEL4 + cval b NEL2 end.
Definition state_size (b : dbuf) : Z := s_del b + deletion b.

(** The states from word [pos] on: complete states that are followed by more
    data; an end marker ends the file; a state that is cut off, or that is not
    followed by anything, ends the list. *)
Inductive states_from (b : dbuf) : Z -> list Z -> Prop :=
| st_state pos l : has b pos -> is_eof (d_ws b) (wd b pos) = false -> below b (pos + state_size b) ->
    states_from b (pos + state_size b) l -> states_from b pos (pos :: l)
| st_cut pos : has b pos -> is_eof (d_ws b) (wd b pos) = false -> ~ below b (pos + state_size b) -> states_from b pos []
| st_next pos q l : has b pos -> is_eof (d_ws b) (wd b pos) = true -> file_end b pos q true -> states_from b q l -> states_from b pos l
| st_end pos q : has b pos -> is_eof (d_ws b) (wd b pos) = true -> file_end b pos q false -> states_from b pos [].

(** ** A supported d3plot *)
Record supported (b : dbuf) : Prop := {
  su_sound : sound_family b; su_aligned : aligned b; su_err : d_err b = None; su_bytes : bytes_ok b;
  su_type : wd b 11 = 1 \/ wd b 11 = 1001;
  su_ndim : cval b NDIM = 4;
  su_icode : cval b ICODE = 2 \/ cval b ICODE = 6;
  su_idtdt : forall n, 0 <= n <= 3 -> digit_of (cval b IDTDT) n <> 1;
  su_neips : cval b NEIPS <= 255;
  su_maxint : maxint_of (cval b MAXINT) <= 255;
  su_zero : forall f, In f [IALEMAT; NMSPH; NPEFG; NUMDS; NUMST; IT] -> cval b f = 0;
  su_nel8 : 0 <= cval b NEL8;
  su_extra : cval b EXTRA = 0 \/ 18 <= cval b EXTRA;
  su_neipb : cval b NEIPB < 2 ^ 32;
  su_tshell : 0 < cval b NELT -> cval b NV2D = 0 -> per_ip b <= cval b NV3DT;
  su_cfd : cval b NCFDV1 <> 67108864;
  su_ids : ids_ok b;
  su_marker : has b (marker_pos b) /\ is_eof (d_ws b) (wd b (marker_pos b)) = true }.

(** The states have the announced size. *)
Definition global_minimum (b : dbuf) : Z := 6 + 7 * (cval b NUMMAT8 + cval b NUMMAT2 + cval b NUMMAT4 + cval b NUMMATT + numrbs b).
Record regular_states (b : dbuf) : Prop := {
  re_flags : forall f, In f [IU; IV; IA] -> cval b f = 0 \/ cval b f = 1;
  re_global : global_minimum b <= cval b NGLBV;
  re_size : state_size b < 2 ^ 60 }.

(** The sections of a supported plot: the header ends before [hdr_end], the part
    titles are at [titles], the states are [states]. *)
Definition layout (b : dbuf) (titles : Z) (states : list Z) : Prop :=
  exists hdr_end q, blocks b (marker_pos b + 1) 0 hdr_end titles /\ file_end b (hdr_end - 1) q true /\ states_from b q states.

(** ** Tables one after the other *)
(** The tables of the given sizes lie one after the other from [pos] to [e];
    [ptr] says where each of them begins.  [None]: words nobody reads. *)
Fixpoint consecutive (ptr : dkind -> Z) (pos : Z) (l : list (option dkind * Z)) (e : Z) : Prop :=
  match l with
  | [] => pos = e
  | (k, n) :: r => 0 <= n /\ match k with Some k => 0 < n -> ptr k = pos | None => True end /\ consecutive ptr (pos + n) r e
  end.
Definition head_tables (b : dbuf) : list (option dkind * Z) :=
  [(Some K_TITLE, 10); (Some K_RUN_TIME, 1); (None, control_end b - 11);
   (Some K_NODE_COORDS, 3 * cval b NUMNP); (Some K_EL8_CONNECT, 9 * cval b NEL8); (Some K_ELT_CONNECT, 9 * cval b NELT);
   (Some K_EL2_CONNECT, 6 * cval b NEL2); (Some K_EL4_CONNECT, 5 * cval b NEL4)].
Definition id_tables (b : dbuf) : list (option dkind * Z) :=
  [(None, if part_ids_present b then 16 else 10);
   (Some K_NODE_IDS, cval b NUMNP); (Some K_EL8_IDS, cval b NEL8); (Some K_EL2_IDS, cval b NEL2); (Some K_EL4_IDS, cval b NEL4); (Some K_ELT_IDS, cval b NELT);
   (if part_ids_present b then Some K_PART_IDS else None, 3 * ids_nmmat b)].
Definition state_tables (b : dbuf) : list (option dkind * Z) :=
  [(Some K_STATE_TIME, 1); (None, cval b NGLBV);
   (Some K_STATE_NODE_COORDS, 3 * cval b NUMNP * cval b IU); (Some K_STATE_NODE_VEL, 3 * cval b NUMNP * cval b IV); (Some K_STATE_NODE_ACC, 3 * cval b NUMNP * cval b IA);
   (None, cval b NT3D * cval b NEL8);
   (Some K_STATE_SOLID, cval b NV3D * cval b NEL8); (Some K_STATE_BEAM, cval b NV1D * cval b NEL2); (Some K_STATE_SHELL, cval b NV2D * cval b NEL4);
   (Some K_STATE_THICK_SHELL, cval b NV3DT * cval b NELT); (None, deletion b)].
