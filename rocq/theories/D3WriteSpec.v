(** * Writing a d3plot (specification only: dynareadout writes no files)

    What a program that follows the LS-DYNA database manual writes for a model:
    nodes, solids, thick shells, beams and shells with user ids, parts with ids
    and titles, and states with the time, global values, nodal vectors and
    element values, distributed over any number of files. *)
From Verif Require Import CBase BinModel D3BufModel D3BufSpec D3Model D3Spec D3ReadModel D3ReadSpec D3ElemModel D3ElemSpec.
Open Scope Z_scope.

Definition len {A} (l : list A) : Z := Z.of_nat (length l).

(** ** What is written *)
(** Values are words: the bits of a float or a double. *)
Record dstate : Type := {
  ds_time : Z; ds_globals : list Z; ds_vector : vector -> list Z;
  ds_solids : list (solid * list Z);   (** a solid and its history variables *)
  ds_beams : list beam_view; ds_shells : list shell_view; ds_thick : list thick_view }.
Record dmodel : Type := {
  dm_ws : Z;                                  (** bytes per word *)
  dm_title : list Z; dm_run_time : Z;          (** the title: 10 words *)
  dm_coords : list Z;                          (** 3 per node *)
  dm_node_ids : list Z;
  dm_solids : list con; dm_solid_ids : list Z;  (** node and part indices, zero based *)
  dm_beams : list beam_con; dm_beam_ids : list Z;
  dm_shells : list con; dm_shell_ids : list Z;
  dm_thick : list con; dm_thick_ids : list Z;
  dm_parts : list (Z * list Z);                (** id and title (72 bytes, as words) *)
  dm_mats : Z * Z * Z * Z;                     (** materials of solids, beams, shells, thick shells *)
  dm_nglob : Z;                                (** global values per state *)
  dm_has : vector -> bool;                     (** the vectors in the states *)
  dm_strain : bool;                            (** strains are written *)
  dm_solid_hist : Z;                           (** history variables per solid *)
  dm_ips : Z; dm_ip_hist : Z;                  (** integration points of (thick) shells, their history variables *)
  dm_beam_ips : Z;
  dm_pad : list Z;                             (** words behind the header *)
  dm_files : list (list dstate * list Z) }.    (** states and words behind their end, per file *)

(** ** How it is written *)
Definition strain_words (m : dmodel) (n : Z) : Z := if dm_strain m then n else 0.
Definition nv3d (m : dmodel) : Z := 7 + dm_solid_hist m + strain_words m 6.
Definition nv1d (m : dmodel) : Z := 6 + 5 * dm_beam_ips m.
Definition nv2d (m : dmodel) : Z := dm_ips m * (7 + dm_ip_hist m) + 12 + strain_words m 12.
Definition nv3dt (m : dmodel) : Z := dm_ips m * (7 + dm_ip_hist m) + strain_words m 12.
Definition eof_word (ws : Z) : Z := if ws =? 4 then EOF32 else EOF64.
Definition bit (x : bool) : Z := if x then 1 else 0.
Definition all_ids (m : dmodel) : list Z := dm_node_ids m ++ dm_solid_ids m ++ dm_beam_ids m ++ dm_shell_ids m ++ dm_thick_ids m.
Definition id_section_size (m : dmodel) : Z := 16 + len (all_ids m) + 3 * len (dm_parts m).
Definition control (m : dmodel) : list Z :=
  let '(m8, m2, m4, mt) := dm_mats m in
  dm_title m ++
  [dm_run_time m; 1; 0; 0; 0; 4; len (dm_node_ids m); 6; dm_nglob m; 0; bit (dm_has m Coordinates); bit (dm_has m Velocity); bit (dm_has m Acceleration);
   len (dm_solids m); m8; 0; 0; nv3d m; len (dm_beams m); m2; nv1d m; len (dm_shells m); m4; nv2d m; dm_solid_hist m + strain_words m 6; dm_ip_hist m; dm_ips m; 0;
   0; id_section_size m; len (dm_thick m); mt; nv3dt m; 1000; 1000; 1000; 1000; 0; 0; 0; 0; len (dm_parts m); 0; 0; 0; 0; strain_words m 10000; 0; 0; 0; 0; 0; 0; 0].
(** Indices are written one based. *)
Definition one_based (v : Z) : Z := v + 1.
Definition con_out (c : con) : list Z := map one_based (c_nodes c) ++ [one_based (c_mat c)].
Definition beam_con_out (c : beam_con) : list Z := map one_based (bc_nodes c) ++ [one_based (bc_orient c)] ++ bc_null c ++ [one_based (bc_mat c)].
Definition geometry (m : dmodel) : list Z :=
  dm_coords m ++ flat_map con_out (dm_solids m) ++ flat_map con_out (dm_thick m) ++ flat_map beam_con_out (dm_beams m) ++ flat_map con_out (dm_shells m).
(** NSORT = -1 announces the ids of the parts, written three times. *)
Definition ids (m : dmodel) : list Z :=
  [2 ^ (8 * dm_ws m) - 1; 0; 0; 0; 0; len (dm_node_ids m); len (dm_solids m); len (dm_beams m); len (dm_shells m); len (dm_thick m); 0; 0; 0; 0; 0; len (dm_parts m)] ++
  all_ids m ++ map fst (dm_parts m) ++ map fst (dm_parts m) ++ map fst (dm_parts m).
Definition titles_block (m : dmodel) : list Z := [90001; len (dm_parts m)] ++ flat_map (fun p => fst p :: snd p) (dm_parts m).
Definition root_words (m : dmodel) : list Z :=
  control m ++ geometry m ++ ids m ++ [eof_word (dm_ws m)] ++ titles_block m ++ [eof_word (dm_ws m)] ++ dm_pad m.

Definition point_out (p : surface_view) : list Z := v_sigma p ++ [v_plastic p] ++ v_history p.
Definition strain_out (m : dmodel) (l : list Z) : list Z := if dm_strain m then l else [].
Definition solid_out (m : dmodel) (s : solid * list Z) : list Z := so_sigma (fst s) ++ [so_plastic (fst s)] ++ snd s ++ strain_out m (so_epsilon (fst s)).
Definition beam_out (v : beam_view) : list Z := y_resultants v ++ flat_map fst (y_ips v).
Definition shell_out (m : dmodel) (v : shell_view) : list Z :=
  flat_map point_out (w_ips v) ++ w_bending v ++ w_shear v ++ w_normal v ++ [w_thickness v] ++ w_vars v ++ [w_energy v] ++ strain_out m (w_inner v ++ w_outer v).
Definition thick_out (m : dmodel) (v : thick_view) : list Z :=
  flat_map point_out (firstn 3 (x_ips v)) ++ strain_out m (x_inner v ++ x_outer v) ++ flat_map point_out (skipn 3 (x_ips v)).
Definition vectors_out (f : vector -> list Z) : list Z := f Coordinates ++ f Velocity ++ f Acceleration.
Definition state_out (m : dmodel) (s : dstate) : list Z :=
  [ds_time s] ++ ds_globals s ++ vectors_out (ds_vector s) ++ flat_map (solid_out m) (ds_solids s) ++ flat_map beam_out (ds_beams s) ++
  flat_map (shell_out m) (ds_shells s) ++ flat_map (thick_out m) (ds_thick s).
Definition state_file_words (m : dmodel) (f : list dstate * list Z) : list Z := flat_map (state_out m) (fst f) ++ [eof_word (dm_ws m)] ++ snd f.

(** Words to bytes, little endian. *)
Fixpoint bytes_of (n : nat) (v : Z) : list Z := match n with O => [] | S n => v mod 256 :: bytes_of n (v / 256) end.
Definition words_file (ws : Z) (l : list Z) : dfile :=
  let d := flat_map (bytes_of (Z.to_nat ws)) l in {| f_bytes := d; f_size := Z.of_nat (length d); f_ok := true |}.
Definition written_files (m : dmodel) : list dfile := map (words_file (dm_ws m)) (root_words m :: map (state_file_words m) (dm_files m)).
Definition written (m : dmodel) : dbuf := {| d_files := written_files m; d_ws := dm_ws m; d_err := None |}.
Definition all_states (m : dmodel) : list dstate := flat_map fst (dm_files m).

(** ** Well-formed models *)
Definition is_word (ws v : Z) : Prop := 0 <= v < 2 ^ (8 * ws).
Definition is_index (ws v : Z) : Prop := 0 <= v /\ v + 1 < 2 ^ (8 * ws).
Definition con_wf (ws n : Z) (c : con) : Prop := len (c_nodes c) = n /\ Forall (is_index ws) (c_nodes c) /\ is_index ws (c_mat c).
Definition beam_con_wf (ws : Z) (c : beam_con) : Prop :=
  len (bc_nodes c) = 2 /\ Forall (is_index ws) (bc_nodes c) /\ is_index ws (bc_orient c) /\ len (bc_null c) = 2 /\ Forall (is_word ws) (bc_null c) /\ is_index ws (bc_mat c).
Definition point_wf (m : dmodel) (p : surface_view) : Prop := len (v_sigma p) = 6 /\ len (v_history p) = dm_ip_hist m.
(** Strains that are not written are zero. *)
Definition strain_wf (m : dmodel) (l : list Z) : Prop := if dm_strain m then len l = 6 else l = repeat 0 6.
Record state_wf (m : dmodel) (s : dstate) : Prop := {
  sw_words : Forall (is_word (dm_ws m)) (state_out m s);
  sw_time : ds_time s <> eof_word (dm_ws m);
  sw_globals : len (ds_globals s) = dm_nglob m;
  sw_vectors : forall v, len (ds_vector s v) = if dm_has m v then 3 * len (dm_node_ids m) else 0;
  sw_solids : len (ds_solids s) = len (dm_solids m) /\
    Forall (fun x => len (so_sigma (fst x)) = 6 /\ strain_wf m (so_epsilon (fst x)) /\ len (snd x) = dm_solid_hist m) (ds_solids s);
  sw_beams : len (ds_beams s) = len (dm_beams m) /\
    Forall (fun v => len (y_resultants v) = 6 /\ len (y_ips v) = dm_beam_ips m /\ Forall (fun p => len (fst p) = 5 /\ snd p = []) (y_ips v) /\
              y_avg v = [] /\ y_min v = [] /\ y_max v = []) (ds_beams s);
  sw_shells : len (ds_shells s) = len (dm_shells m) /\
    Forall (fun v => len (w_ips v) = dm_ips m /\ Forall (point_wf m) (w_ips v) /\ strain_wf m (w_inner v) /\ strain_wf m (w_outer v) /\
              len (w_bending v) = 3 /\ len (w_shear v) = 2 /\ len (w_normal v) = 3 /\ len (w_vars v) = 2) (ds_shells s);
  sw_thick : len (ds_thick s) = len (dm_thick m) /\
    Forall (fun v => len (x_ips v) = dm_ips m /\ Forall (point_wf m) (x_ips v) /\ strain_wf m (x_inner v) /\ strain_wf m (x_outer v)) (ds_thick s) }.
Definition small (v : Z) : Prop := 0 <= v < 2 ^ 31.
Record model_wf (m : dmodel) : Prop := {
  mw_ws : dm_ws m = 4 \/ dm_ws m = 8;
  mw_title : len (dm_title m) = 10;
  mw_coords : len (dm_coords m) = 3 * len (dm_node_ids m);
  mw_solids : Forall (con_wf (dm_ws m) 8) (dm_solids m) /\ len (dm_solid_ids m) = len (dm_solids m);
  mw_beams : Forall (beam_con_wf (dm_ws m)) (dm_beams m) /\ len (dm_beam_ids m) = len (dm_beams m);
  mw_shells : Forall (con_wf (dm_ws m) 4) (dm_shells m) /\ len (dm_shell_ids m) = len (dm_shells m);
  mw_thick : Forall (con_wf (dm_ws m) 8) (dm_thick m) /\ len (dm_thick_ids m) = len (dm_thick m);
  mw_parts : dm_parts m <> [] /\ Forall (fun p => len (snd p) * dm_ws m = 72) (dm_parts m);
  mw_words : Forall (is_word (dm_ws m)) (dm_title m ++ [dm_run_time m] ++ dm_coords m ++ all_ids m ++ flat_map (fun p => fst p :: snd p) (dm_parts m) ++ dm_pad m);
  mw_hist : 0 <= dm_solid_hist m /\ 0 <= dm_ip_hist m <= 255 /\ 3 <= dm_ips m <= 255 /\ 0 <= dm_beam_ips m <= 255;
  mw_thick_hist : dm_thick m <> [] -> dm_ips m = 3 \/ dm_ip_hist m = 0;
  mw_mats : let '(m8, m2, m4, mt) := dm_mats m in
    0 <= m8 /\ 0 <= m2 /\ 0 <= m4 /\ 0 <= mt /\ 6 + 7 * (m8 + m2 + m4 + mt) <= dm_nglob m;
  mw_files : dm_files m <> [] /\ Forall (fun f => Forall (state_wf m) (fst f) /\ Forall (is_word (dm_ws m)) (snd f)) (dm_files m);
  (** Counts fit into a signed word of 4 bytes, all files into a file offset. *)
  mw_small : len (root_words m) < 2 ^ 31 /\ small (dm_nglob m) /\
    (1 + dm_nglob m + 9 * len (dm_node_ids m) + nv3d m * len (dm_solids m) + nv1d m * len (dm_beams m) + nv2d m * len (dm_shells m) + nv3dt m * len (dm_thick m)) < 2 ^ 31 /\
    small (dm_solid_hist m) /\ total (written m) < 2 ^ 63 }.

(** The values a reader returns are doubles. *)
Definition dbls (ws : Z) (l : list Z) : list Z := map (to_double ws) l.
Definition point_read (ws : Z) (p : surface_view) : surface_view :=
  {| v_sigma := dbls ws (v_sigma p); v_plastic := to_double ws (v_plastic p); v_history := dbls ws (v_history p) |}.
Definition solid_read (ws : Z) (s : solid) : solid :=
  {| so_sigma := dbls ws (so_sigma s); so_plastic := to_double ws (so_plastic s); so_epsilon := dbls ws (so_epsilon s) |}.
Definition beam_read (ws : Z) (v : beam_view) : beam_view :=
  {| y_resultants := dbls ws (y_resultants v); y_ips := map (fun p => (dbls ws (fst p), dbls ws (snd p))) (y_ips v);
     y_avg := dbls ws (y_avg v); y_min := dbls ws (y_min v); y_max := dbls ws (y_max v) |}.
Definition shell_read (ws : Z) (v : shell_view) : shell_view :=
  {| w_ips := map (point_read ws) (w_ips v); w_inner := dbls ws (w_inner v); w_outer := dbls ws (w_outer v); w_bending := dbls ws (w_bending v);
     w_shear := dbls ws (w_shear v); w_normal := dbls ws (w_normal v); w_thickness := to_double ws (w_thickness v); w_vars := dbls ws (w_vars v); w_energy := to_double ws (w_energy v) |}.
Definition thick_read (ws : Z) (v : thick_view) : thick_view :=
  {| x_ips := map (point_read ws) (x_ips v); x_inner := dbls ws (x_inner v); x_outer := dbls ws (x_outer v) |}.

(** ** Reading it *)
(** The written plot, opened without an error, after any number of reads (they may
    have failed). *)
Definition open_plot (m : dmodel) (pl : plot) : Prop := exists pl0 e, open_buffer (written m) = OK pl0 /\ pl_err pl0 = None /\ pl = with_err pl0 e.
(** A reader returns [x] without an error; the plot stays open. *)
Definition returns {A} (m : dmodel) (r : res (plot * A)) (x : A) : Prop := exists pl, r = OK (pl, x) /\ pl_err pl = None /\ open_plot m pl.
(** ... elements that show [views]. *)
Definition shows {A M1 M2 V} (m : dmodel) (see1 : M1 -> M2 -> A -> option V) (r : res (plot * option (list A * M1 * M2))) (views : list V) : Prop :=
  exists l m1 m2, returns m r (Some (l, m1, m2)) /\ map (see1 m1 m2) l = map Some views.
(** With 8 bytes per word, the bytes 60 to 63 of the title are not a number below 8
    (blanks and letters are not). *)
Definition text_title (m : dmodel) : Prop := dm_ws m = 8 -> 8 <= nth 7 (dm_title m) 0 / 2 ^ 32.
