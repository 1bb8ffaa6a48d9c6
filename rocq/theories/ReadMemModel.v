(** * Model of the memory of the d3plot readers: /repo/src/d3plot.c 484-675,
    836-972, 1313-1366, 2568-3071, 3141-3395, d3plot_part_nodes.c, pgni.h

    The readers of D3ReadModel.v and D3PartModel.v again, with their calls of
    malloc, realloc and free.  Memory is that of CppArrayModel.v.  [malloc] never
    fails and also makes a block of 0 bytes; [realloc] always moves (and to 0 bytes
    makes a block of 0 bytes, where glibc frees the old one and returns NULL).  What the
    blocks contain is not modelled: the values are carried beside the pointers. *)
From Verif Require Import CBase SearchModel BinModel D3BufModel D3Model D3ReadModel D3PartModel CppArrayModel OwnModel.
Open Scope Z_scope.

(** A block for [n] elements. *)
Definition block_of (n : Z) : list Z := malloc (Z.to_nat n).
(** realloc(p, n * size) *)
Definition h_realloc (h : heap) (p : option ptr) (n : Z) : res (heap * ptr) :=
  let '(h, q) := h_malloc h (block_of n) in do h <- h_free_opt h p; OK (h, q).

(** An array and its values. *)
Definition held A : Type := list A * option ptr.
Definition nothing {A} : held A := ([], None).

(** ** Ids, connectivity *)
(** What _d3plot_read_ids and the readers of elements have in common: an array for
    the result and, for word size 4, one for the words of the file, which is freed in
    every case.  [read]: reading and checking for errors. *)
Definition read_into {A} (h : heap) (ws num words_num : Z) (read : res (plot * option A)) : res (heap * plot * option (A * ptr)) :=
  let '(h, result) := h_malloc h (block_of num) in
  if ws =? 4 then
    let '(h, raw) := h_malloc h (block_of words_num) in
    do ' (pl, d) <- read;
    match d with
    | None => do h <- h_free h raw; do h <- h_free h result; OK (h, pl, None)
    | Some l => do h <- h_free h raw; OK (h, pl, Some (l, result))
    end
  else
    do ' (pl, d) <- read;
    match d with
    | None => do h <- h_free h result; OK (h, pl, None)
    | Some l => OK (h, pl, Some (l, result))
    end.
Definition as_held {A} (x : heap * plot * option (list A * ptr)) : heap * plot * held A :=
  match x with (h, pl, Some (l, p)) => (h, pl, (l, Some p)) | (h, pl, None) => (h, pl, nothing) end.
(** d3plot.c:3259-3306 *)
Definition read_ids_mem (h : heap) (pl : plot) (k : dkind) (num : Z) : res (heap * plot * held Z) :=
  let pl := clear pl in
  if num =? 0 then OK (h, pl, nothing) else
  do x <- read_into h (d_ws (pl_buf pl)) num num (read_at pl num (pl_ptr pl k)); OK (as_held x).
(** d3plot.c:484-535 *)
Definition read_node_ids_mem (h : heap) (pl : plot) := read_ids_mem h pl K_NODE_IDS (pl_cd pl NUMNP).
Definition read_solid_element_ids_mem (h : heap) (pl : plot) := read_ids_mem h pl K_EL8_IDS (u64 (pl_cd pl NEL8)).
Definition read_beam_element_ids_mem (h : heap) (pl : plot) := read_ids_mem h pl K_EL2_IDS (pl_cd pl NEL2).
Definition read_shell_element_ids_mem (h : heap) (pl : plot) := read_ids_mem h pl K_EL4_IDS (pl_cd pl NEL4).
Definition read_thick_shell_element_ids_mem (h : heap) (pl : plot) := read_ids_mem h pl K_ELT_IDS (pl_cd pl NELT).
(** d3plot.c:579-624: errors while the ids are read from the header are not looked at. *)
Definition read_part_ids_mem (h : heap) (pl : plot) : res (heap * plot * held Z) :=
  let pl := clear pl in
  if pl_ptr pl K_PART_IDS =? 0 then
    if pl_ptr pl K_PART_TITLES =? 0 then OK (h, fail pl P_part_ids, nothing) else
    let '(h, part_ids) := h_malloc h (block_of (pl_cd pl NMMAT)) in
    do ' (pl, l) <- read_part_ids pl; OK (h, pl, (l, Some part_ids))
  else read_ids_mem h pl K_PART_IDS (pl_cd pl NMMAT).

(** d3plot.c:2568-2887 *)
Definition read_con_mem {A} (h : heap) (pl : plot) (num w : Z) (k : dkind) (f : Z -> list Z -> nat -> res A) : res (heap * plot * held A) :=
  let pl := clear pl in
  if num <=? 0 then OK (h, pl, nothing) else
  do x <- read_into h (d_ws (pl_buf pl)) num (w * num)
    (do ' (pl, d) <- read_at pl (u64 (w * num)) (pl_ptr pl k);
     match d with None => OK (pl, None) | Some d => do l <- build (f (d_ws (pl_buf pl)) d) (Z.to_nat num) 0; OK (pl, Some l) end);
  OK (as_held x).
Definition read_solid_elements_mem (h : heap) (pl : plot) : res (heap * plot * held con) :=
  read_con_mem h pl (pl_cd pl NEL8) 9 K_EL8_CONNECT (fun ws => con_at ws 9 [0; 1; 2; 3; 4; 5; 6; 7]%nat 8).
Definition read_thick_shell_elements_mem (h : heap) (pl : plot) : res (heap * plot * held con) :=
  read_con_mem h pl (pl_cd pl NELT) 9 K_ELT_CONNECT (fun ws => con_at ws 9 [0; 1; 2; 3; 4; 5; 6; 7]%nat 8).
Definition read_beam_elements_mem (h : heap) (pl : plot) : res (heap * plot * held beam_con) := read_con_mem h pl (pl_cd pl NEL2) 6 K_EL2_CONNECT beam_con_at.
Definition read_shell_elements_mem (h : heap) (pl : plot) : res (heap * plot * held con) :=
  read_con_mem h pl (pl_cd pl NEL4) 5 K_EL4_CONNECT (fun ws => con_at ws 5 [0; 1; 2; 3]%nat 4).

(** ** Titles, times, vectors *)
(** d3plot.c:2889-2911 *)
Definition read_title_mem (h : heap) (pl : plot) : res (heap * plot * option (list Z * ptr)) :=
  let pl := clear pl in
  let '(h, title) := h_malloc h (block_of (10 * d_ws (pl_buf pl) + 1)) in
  do ' (pl, d) <- read_bytes_at pl 10 (pl_ptr pl K_TITLE);
  match d with
  | None => do h <- h_free h title; OK (h, pl, None)
  | Some t => OK (h, pl, Some (t, title))
  end.
(** d3plot.c:626-675: a block for every title in turn; after an error in title [i] the
    blocks 0 to [i] and the array are freed. *)
Fixpoint more_titles_mem (h : heap) (n : nat) (c : dbuf * dptr) : res (heap * (dbuf * dptr) * list (option ptr) * option (list (list Z))) :=
  match n with
  | O => OK (h, c, [], Some [])
  | S n =>
    let '(h, t) := h_malloc h (block_of 73) in
    do c <- skip c 1;
    do ' (b, p, d) <- read_words (fst c) (snd c) (title_size (d_ws (fst c)));
    match d_err b with
    | Some _ => OK (h, (b, p), [Some t], None)
    | None => do ' (h, c, ps, l) <- more_titles_mem h n (b, p); OK (h, c, Some t :: ps, match l with Some l => Some (d :: l) | None => None end)
    end
  end.
Definition read_part_titles_mem (h : heap) (pl : plot) : res (heap * plot * option (list (list Z) * list (option ptr) * ptr)) :=
  let pl := clear pl in
  let '(h, part_titles) := h_malloc h (block_of (pl_cd pl NMMAT)) in
  match Z.to_nat (pl_cd pl NMMAT) with
  | O => UB (* the pointer is uninitialised *)
  | S n =>
    let '(h, t) := h_malloc h (block_of 73) in
    do ' (b, p, d) <- read_words_at (pl_buf pl) (title_size (d_ws (pl_buf pl))) (u64 (pl_ptr pl K_PART_TITLES + 1));
    do ' (h, c, ps, l) <- match d_err b with
                   | Some _ => OK (h, (b, p), [Some t], None)
                   | None => do ' (h, c, ps, l) <- more_titles_mem h n (b, p); OK (h, c, Some t :: ps, match l with Some l => Some (d :: l) | None => None end)
                   end;
    do _ <- pointer_close (fst c) (snd c);
    let pl := with_buf pl (fst c) in
    match l with
    | Some l => OK (h, pl, Some (l, ps, part_titles))
    | None => do h <- h_free_all h ps; do h <- h_free h part_titles; OK (h, fail pl P_words, None)
    end
  end.
(** d3plot.c:1313-1366 *)
Definition read_all_time_mem (h : heap) (pl : plot) : res (heap * plot * option (list Z * ptr)) :=
  let pl := clear pl in
  let '(h, times) := h_malloc h (block_of (Z.of_nat (length (pl_states pl)))) in
  do ' (pl, l) <- all_times pl (pl_states pl);
  match l with
  | Some l => OK (h, pl, Some (l, times))
  | None => do h <- h_free h times; OK (h, pl, None)
  end.
(** d3plot.c:3200-3257 [_d3plot_read_node_data_32] for word size 4 *)
Definition node_words_mem (h : heap) (pl : plot) (state : nat) (k : dkind) : res (heap * plot * option (list Z * ptr)) :=
  let pl := clear pl in
  if pl_ptr pl k =? 0 then OK (h, fail pl P_node_data, None) else
  match state_at pl state with
  | None => OK (h, fail pl P_state, None)
  | Some s =>
    let '(h, coords) := h_malloc h (block_of (pl_cd pl NUMNP * 3)) in
    do ' (pl, d) <- read_at pl (u64 (pl_cd pl NUMNP * 3)) (u64 (s + pl_ptr pl k));
    match d with
    | None => do h <- h_free h coords; OK (h, pl, None)
    | Some l => OK (h, pl, Some (l, coords))
    end
  end.
(** d3plot.c:3141-3198: for word size 4 a second array, the first one is freed. *)
Definition node_data_mem (h : heap) (pl : plot) (state : nat) (k : dkind) : res (heap * plot * option (list Z * ptr)) :=
  do ' (h, pl, d) <- node_words_mem h pl state k;
  match d with
  | None => OK (h, pl, None)
  | Some (l, p) =>
    if d_ws (pl_buf pl) =? 4 then
      let '(h, coords) := h_malloc h (block_of (pl_cd pl NUMNP * 3)) in
      do h <- h_free h p; OK (h, pl, Some (map (to_double (d_ws (pl_buf pl))) l, coords))
    else OK (h, pl, Some (map (to_double (d_ws (pl_buf pl))) l, p))
  end.
Definition read_node_velocity_mem (h : heap) (pl : plot) (state : nat) := node_data_mem h pl state K_STATE_NODE_VEL.
Definition read_node_acceleration_mem (h : heap) (pl : plot) (state : nat) := node_data_mem h pl state K_STATE_NODE_ACC.
(** d3plot.c:761-823, 836-897, 910-972, 1059-1271 *)
Definition read_all_node_data_mem (h : heap) (pl : plot) (k : dkind) : res (heap * plot * option (list Z * ptr)) :=
  let pl := clear pl in
  let values := pl_cd pl NUMNP * Z.of_nat (length (pl_states pl)) * 3 in
  let '(h, p) := h_malloc h (block_of values) in
  do ' (pl, l) <- all_node_words pl k (pl_states pl);
  match l with
  | None => do h <- h_free h p; OK (h, pl, None)
  | Some l =>
    let l := map (to_double (d_ws (pl_buf pl))) l in
    if d_ws (pl_buf pl) =? 4 then let '(h, q) := h_malloc h (block_of values) in do h <- h_free h p; OK (h, pl, Some (l, q))
    else OK (h, pl, Some (l, p))
  end.

(** ** Parts *)
(** d3plot.c:2966-2981: both arrays grow with every element. *)
Fixpoint pick_mem (h : heap) (part_index : Z) (ids mats : list Z) (i : nat) (num : Z) (pids pinds : option ptr)
  : res (heap * (list Z * option ptr) * (list nat * option ptr)) :=
  match mats with
  | [] => OK (h, ([], pids), ([], pinds))
  | m :: r =>
    if m =? part_index then
      do ' (h, p) <- h_realloc h pids (num + 1);
      do ' (h, q) <- h_realloc h pinds (num + 1);
      do id <- aget ids i;
      do ' (h, (a, p), (c, q)) <- pick_mem h part_index ids r (S i) (num + 1) (Some p) (Some q);
      OK (h, (id :: a, p), (i :: c, q))
    else pick_mem h part_index ids r (S i) num pids pinds
  end.
(** d3plot.c:2954-2986 *)
Definition add_elements_mem {A} (h : heap) (pl : plot) (id_func : heap -> plot -> res (heap * plot * held Z)) (el_func : heap -> plot -> res (heap * plot * held A))
  (mat : A -> Z) (part_index : Z) : res (heap * plot * held Z * held nat) :=
  do ' (h, pl, (ids, pids)) <- id_func h pl;
  match pl_err pl with
  | Some _ => OK (h, clear pl, nothing, nothing)
  | None =>
    match ids with
    | [] => OK (h, pl, nothing, nothing)
    | _ =>
      do ' (h, pl, (els, pels)) <- el_func h pl;
      do ' (h, pl, a, c) <- match pl_err pl with
                            | Some _ => OK (h, clear pl, nothing, nothing)
                            | None => do ' (h, a, c) <- pick_mem h part_index ids (map mat els) 0 0 None None; OK (h, pl, a, c)
                            end;
      do h <- h_free_opt h pids;
      do h <- h_free_opt h pels;
      OK (h, pl, a, c)
    end
  end.
(** d3plot.c:2988-3033: the part and its pointers in the order of d3plot_free_part. *)
Definition read_part_mem (h : heap) (pl : plot) (part_index : Z) : res (heap * plot * part * list (option ptr)) :=
  let pl := clear pl in
  do ' (h, pl, (solid_ids, p1), (solid_indices, q1)) <- add_elements_mem h pl read_solid_element_ids_mem read_solid_elements_mem c_mat part_index;
  do ' (h, pl, (thick_shell_ids, p2), (thick_shell_indices, q2)) <- add_elements_mem h pl read_thick_shell_element_ids_mem read_thick_shell_elements_mem c_mat part_index;
  do ' (h, pl, (beam_ids, p3), (beam_indices, q3)) <- add_elements_mem h pl read_beam_element_ids_mem read_beam_elements_mem bc_mat part_index;
  do ' (h, pl, (shell_ids, p4), (shell_indices, q4)) <- add_elements_mem h pl read_shell_element_ids_mem read_shell_elements_mem c_mat part_index;
  let p := {| p_solid_ids := solid_ids; p_thick_shell_ids := thick_shell_ids; p_beam_ids := beam_ids; p_shell_ids := shell_ids;
              p_solid_indices := solid_indices; p_thick_shell_indices := thick_shell_indices; p_beam_indices := beam_indices; p_shell_indices := shell_indices |} in
  let ptrs := [p1; p2; p3; p4; q1; q2; q3; q4] in
  match solid_ids, thick_shell_ids, beam_ids, shell_ids with
  | [], [], [], [] => OK (h, fail pl P_part, p, ptrs)
  | _, _, _, _ => OK (h, pl, p, ptrs)
  end.
(** d3plot.c:3356-3383 [d3plot_free_part] *)
Definition free_part (h : heap) (ptrs : list (option ptr)) : res heap := h_free_all h ptrs.
(** d3plot.c:3035-3071 *)
Definition read_part_by_id_mem (h : heap) (pl : plot) (part_id : Z) (part_ids : option (list Z)) : res (heap * plot * part * list (option ptr)) :=
  let pl := clear pl in
  do ' (h, pl, (ids, p)) <- match part_ids with Some l => OK (h, pl, (l, None)) | None => read_part_ids_mem h pl end;
  match pl_err pl with
  | Some _ => OK (h, pl, no_part, [])
  | None =>
    match ids with
    | [] => OK (h, fail pl P_no_parts, no_part, [])
    | _ =>
      do index <- d3_word_binary_search ids 0 (length ids - 1) part_id;
      do h <- h_free_opt h p;
      match index with
      | None => OK (h, fail pl P_part_id, no_part, [])
      | Some i => read_part_mem h pl (Z.of_nat i)
      end
    end
  end.

(** ** Nodes of a part *)
(** pgni.h:37-109 and the other seven functions: [loaded_cons] is never set, so
    that elements that were read are not freed. *)
Definition add_element_mem {A} (h : heap) (f : Z -> res Z) (pl : plot) (st : narr) (part_element_ids : list Z) (ids : option (list Z)) (cns : option (list A))
  (read_ids : heap -> plot -> res (heap * plot * held Z)) (read_cons : heap -> plot -> res (heap * plot * held A)) (nodes : A -> list Z) : res (heap * plot * narr) :=
  match part_element_ids with
  | [] => OK (h, pl, st)
  | _ =>
    do ' (h, pl, ids, pids) <- match ids with
                      | Some l => OK (h, pl, Some l, None)
                      | None => do ' (h, pl, (l, p)) <- read_ids h pl; OK (h, match pl_err pl with Some _ => clear pl | None => pl end, null_if_empty l, p)
                      end;
    match ids with
    | None => OK (h, pl, st)
    | Some ids =>
      do ' (h, pl, num, cns) <- match cns with
                              | Some l => OK (h, pl, length ids, Some l)
                              | None => do ' (h, pl, (l, p)) <- read_cons h pl;
                                        match pl_err pl with
                                        | Some _ => do h <- h_free_opt h pids; OK (h, clear pl, length l, null_if_empty l)
                                        | None => OK (h, pl, length l, null_if_empty l)
                                        end
                              end;
      match cns with
      | None => OK (h, pl, st)
      | Some cns => do st <- push_elements f st part_element_ids ids num (map nodes cns); do h <- h_free_opt h pids; OK (h, pl, st)
      end
    end
  end.
(** d3plot_part_nodes.c:53-77, 90-109; [node_ids]: the block of the node ids if they
    were read. *)
Definition part_nodes_mem (h : heap) (f : Z -> res Z) (pl : plot) (p : part) (t : tables) (node_ids : option ptr) : res (heap * plot * list Z * ptr) :=
  let cap := (length (p_solid_ids p) * 8 + length (p_beam_ids p) * 2 + length (p_shell_ids p) * 4 + length (p_thick_shell_ids p) * 8)%nat in
  let st := {| n_cells := repeat None cap; n_num := 0 |} in
  let '(h, nodes) := h_malloc h (block_of (Z.of_nat cap)) in
  do ' (h, pl, st) <- add_element_mem h f pl st (p_solid_ids p) (t_solid_ids t) (t_solid_cons t) read_solid_element_ids_mem read_solid_elements_mem c_nodes;
  do ' (h, pl, st) <- add_element_mem h f pl st (p_beam_ids p) (t_beam_ids t) (t_beam_cons t) read_beam_element_ids_mem read_beam_elements_mem bc_nodes;
  do ' (h, pl, st) <- add_element_mem h f pl st (p_shell_ids p) (t_shell_ids t) (t_shell_cons t) read_shell_element_ids_mem read_shell_elements_mem c_nodes;
  do ' (h, pl, st) <- add_element_mem h f pl st (p_thick_shell_ids p) (t_thick_shell_ids t) (t_thick_shell_cons t) read_thick_shell_element_ids_mem read_thick_shell_elements_mem c_nodes;
  do h <- h_free_opt h node_ids;
  do ' (h, nodes) <- (if (cap =? n_num st)%nat then OK (h, nodes) else h_realloc h (Some nodes) (Z.of_nat (n_num st)));
  do l <- build (cell (n_cells st)) (n_num st) 0;
  OK (h, pl, l, nodes).
(** d3plot_part_nodes.c:28-77 *)
Definition part_get_node_ids2_mem (h : heap) (pl : plot) (p : part) (node_ids : option (list Z)) (t : tables) : res (heap * plot * option (list Z * ptr)) :=
  let pl := clear pl in
  do ' (h, pl, (node_ids, q)) <- match node_ids with Some l => OK (h, pl, (l, None)) | None => read_node_ids_mem h pl end;
  match pl_err pl with
  | Some _ => OK (h, pl, None)
  | None => do ' (h, pl, l, nodes) <- part_nodes_mem h (node_lookup node_ids) pl p t q; OK (h, pl, Some (l, nodes))
  end.
(** d3plot_part_nodes.c:79-109 *)
Definition part_get_node_indices2_mem (h : heap) (pl : plot) (p : part) (t : tables) : res (heap * plot * list Z * ptr) :=
  part_nodes_mem h (fun i => OK i) (clear pl) p t None.
(** d3plot_part_nodes.c:111-129 *)
Definition part_get_num_nodes2_mem (h : heap) (pl : plot) (p : part) (t : tables) : res (heap * plot * nat) :=
  do ' (h, pl, l, nodes) <- part_get_node_indices2_mem h pl p t; do h <- h_free h nodes; OK (h, pl, length l).

(** ** All element ids *)
(** d3plot.c:537-577, 3313-3354 *)
Definition add_ids_mem (h : heap) (pl : plot) (all : option (list Z)) (p : option ptr) (reader : heap -> plot -> res (heap * plot * held Z))
  : res (heap * plot * option (list Z) * option ptr) :=
  do ' (h, pl, (ids, q)) <- reader h pl;
  match ids with
  | [] => OK (h, pl, all, p)
  | _ =>
    do l <- insert_sorted all ids;
    do ' (h, p) <- h_realloc h p (Z.of_nat (length l));
    do h <- h_free_opt h q;
    OK (h, pl, Some l, Some p)
  end.
Definition read_all_element_ids_mem (h : heap) (pl : plot) : res (heap * plot * held Z) :=
  do ' (h, pl, all, p) <- add_ids_mem h pl None None read_solid_element_ids_mem;
  do ' (h, pl, all, p) <- add_ids_mem h pl all p read_beam_element_ids_mem;
  do ' (h, pl, all, p) <- add_ids_mem h pl all p read_shell_element_ids_mem;
  do ' (h, pl, all, p) <- add_ids_mem h pl all p read_thick_shell_element_ids_mem;
  OK (h, pl, (or_null all, p)).
