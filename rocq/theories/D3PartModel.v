(** * Model of the parts of /repo/src/d3plot.c and of d3plot_part_nodes.c, pgni.h

    Element tables that the caller passes (or NULL) are [option]s, with the
    passed length equal to the length of the array.  Not modelled: allocation
    failure, freeing (pgni.h never frees connectivity it has read). *)
From Verif Require Import CBase SearchModel BinModel D3BufModel D3Model D3ReadModel.
Open Scope Z_scope.

(** d3_defines.h:76-91; the lengths are those of the id arrays. *)
Record part : Type := {
  p_solid_ids : list Z; p_thick_shell_ids : list Z; p_beam_ids : list Z; p_shell_ids : list Z;
  p_solid_indices : list nat; p_thick_shell_indices : list nat; p_beam_indices : list nat; p_shell_indices : list nat }.
Definition no_part : part := {| p_solid_ids := []; p_thick_shell_ids := []; p_beam_ids := []; p_shell_ids := []; p_solid_indices := []; p_thick_shell_indices := []; p_beam_indices := []; p_shell_indices := [] |}.

(** d3plot.c:2966-2981: the loop, from element [i] on; [mats] are the material
    indices of the elements. *)
Fixpoint pick (part_index : Z) (ids : list Z) (mats : list Z) (i : nat) : res (list Z * list nat) :=
  match mats with
  | [] => OK ([], [])
  | m :: r =>
    if m =? part_index then
      do id <- aget ids i; do ' (a, c) <- pick part_index ids r (S i); OK (id :: a, i :: c)
    else pick part_index ids r (S i)
  end.
(** d3plot.c:2954-2986 *)
Definition add_elements_to_part {A} (pl : plot) (id_func : plot -> res (plot * list Z)) (el_func : plot -> res (plot * list A)) (mat : A -> Z) (part_index : Z)
  : res (plot * (list Z * list nat)) :=
  do ' (pl, ids) <- id_func pl;
  match pl_err pl with
  | Some _ => OK (clear pl, ([], []))
  | None =>
    match ids with
    | [] => OK (pl, ([], []))
    | _ =>
      do ' (pl, els) <- el_func pl;
      match pl_err pl with
      | Some _ => OK (clear pl, ([], []))
      | None => do r <- pick part_index ids (map mat els) 0; OK (pl, r)
      end
    end
  end.
(** d3plot.c:2988-3033 *)
Definition read_part (pl : plot) (part_index : Z) : res (plot * part) :=
  let pl := clear pl in
  do ' (pl, (solid_ids, solid_indices)) <- add_elements_to_part pl read_solid_element_ids read_solid_elements c_mat part_index;
  do ' (pl, (thick_shell_ids, thick_shell_indices)) <- add_elements_to_part pl read_thick_shell_element_ids read_thick_shell_elements c_mat part_index;
  do ' (pl, (beam_ids, beam_indices)) <- add_elements_to_part pl read_beam_element_ids read_beam_elements bc_mat part_index;
  do ' (pl, (shell_ids, shell_indices)) <- add_elements_to_part pl read_shell_element_ids read_shell_elements c_mat part_index;
  let p := {| p_solid_ids := solid_ids; p_thick_shell_ids := thick_shell_ids; p_beam_ids := beam_ids; p_shell_ids := shell_ids;
              p_solid_indices := solid_indices; p_thick_shell_indices := thick_shell_indices; p_beam_indices := beam_indices; p_shell_indices := shell_indices |} in
  match solid_ids, thick_shell_ids, beam_ids, shell_ids with
  | [], [], [], [] => OK (fail pl P_part, p)
  | _, _, _, _ => OK (pl, p)
  end.
(** d3plot.c:3035-3071.  The [~0] of the search is compared with the int [~0],
    which is converted to the same size_t. *)
Definition read_part_by_id (pl : plot) (part_id : Z) (part_ids : option (list Z)) : res (plot * part) :=
  let pl := clear pl in
  do ' (pl, ids) <- match part_ids with Some l => OK (pl, l) | None => read_part_ids pl end;
  match pl_err pl with
  | Some _ => OK (pl, no_part)
  | None =>
    match ids with
    | [] => OK (fail pl P_no_parts, no_part)
    | _ =>
      do index <- d3_word_binary_search ids 0 (length ids - 1) part_id;
      match index with
      | None => OK (fail pl P_part_id, no_part)
      | Some i => read_part pl (Z.of_nat i)
      end
    end
  end.

(** ** Nodes of a part *)
(** The array that is filled: the cells are [None] before they are written. *)
Record narr : Type := { n_cells : list (option Z); n_num : nat }.
Definition cell (cells : list (option Z)) (i : nat) : res Z :=
  do c <- aget cells i; match c with Some v => OK v | None => UB end.
(** pgni.h:86-92: move everything to the right, from [i] down to [insert_index]. *)
Fixpoint shift_right (cells : list (option Z)) (insert_index i : nat) : res (list (option Z)) :=
  match i with
  | O => OK cells
  | S j => if (insert_index <? i)%nat then do v <- cell cells j; do cells <- aset cells i (Some v); shift_right cells insert_index j else OK cells
  end.
(** pgni.h:76-95 (and the same lines of the other functions) *)
Definition push_node (st : narr) (id : Z) : res narr :=
  match n_num st with
  | O => do cells <- aset (n_cells st) 0 (Some id); OK {| n_cells := cells; n_num := 1 |}
  | S last =>
    do ' (insert_index, found) <- bsearch_insert (fun i => do x <- cell (n_cells st) i; OK (d3_word_cmp id x)) 0 last;
    if found : bool then OK st else
    do cells <- shift_right (n_cells st) insert_index (S last);
    do cells <- aset cells insert_index (Some id);
    OK {| n_cells := cells; n_num := S (S last) |}
  end.
(** pgni.h:71-99: the nodes of an element.  [f]: node_ids[node_index] (pgni) or
    node_index itself (pgnind). *)
Fixpoint push_nodes (f : Z -> res Z) (st : narr) (node_indices : list Z) : res narr :=
  match node_indices with
  | [] => OK st
  | n :: r => do id <- f n; do st <- push_node st id; push_nodes f st r
  end.
(** pgni.h:66-101: the elements of the part; [num] is num_solids, ...; the index of
    an id that is not found is outside of every array. *)
Fixpoint push_elements (f : Z -> res Z) (st : narr) (part_element_ids ids : list Z) (num : nat) (cns : list (list Z)) : res narr :=
  match part_element_ids with
  | [] => OK st
  | id :: r =>
    do el_index <- match num with O => UB | S last => d3_word_binary_search ids 0 last id end;
    do node_indices <- match el_index with None => UB | Some i => aget cns i end;
    do st <- push_nodes f st node_indices;
    push_elements f st r ids num cns
  end.
(** pgni.h:37-109 (the other element types and the pgnind functions are the same).
    Reading is skipped if the part has no such elements; an error is ignored. *)
Definition null_if_empty {A} (l : list A) : option (list A) := match l with [] => None | _ => Some l end.
Definition add_element {A} (f : Z -> res Z) (pl : plot) (st : narr) (part_element_ids : list Z) (ids : option (list Z)) (cns : option (list A))
  (read_ids : plot -> res (plot * list Z)) (read_cons : plot -> res (plot * list A)) (nodes : A -> list Z) : res (plot * narr) :=
  match part_element_ids with
  | [] => OK (pl, st)
  | _ =>
    do ' (pl, ids) <- match ids with
                      | Some l => OK (pl, Some l)
                      | None => do ' (pl, l) <- read_ids pl; OK (match pl_err pl with Some _ => clear pl | None => pl end, null_if_empty l)
                      end;
    match ids with
    | None => OK (pl, st)
    | Some ids =>
      do ' (pl, num, cns) <- match cns with
                              | Some l => OK (pl, length ids, Some l)
                              | None => do ' (pl, l) <- read_cons pl; OK (match pl_err pl with Some _ => clear pl | None => pl end, length l, null_if_empty l)
                              end;
      match cns with
      | None => OK (pl, st)
      | Some cns => do st <- push_elements f st part_element_ids ids num (map nodes cns); OK (pl, st)
      end
    end
  end.
(** The element tables a caller may pass. *)
Record tables : Type := {
  t_solid_ids : option (list Z); t_beam_ids : option (list Z); t_shell_ids : option (list Z); t_thick_shell_ids : option (list Z);
  t_solid_cons : option (list con); t_beam_cons : option (list beam_con); t_shell_cons : option (list con); t_thick_shell_cons : option (list con) }.
(** d3plot_part_nodes.c:53-76, 90-108 (common part): the capacity, the four element
    types and the shrinking. *)
Definition part_nodes (f : Z -> res Z) (pl : plot) (p : part) (t : tables) : res (plot * list Z) :=
  let cap := (length (p_solid_ids p) * 8 + length (p_beam_ids p) * 2 + length (p_shell_ids p) * 4 + length (p_thick_shell_ids p) * 8)%nat in
  let st := {| n_cells := repeat None cap; n_num := 0 |} in
  do ' (pl, st) <- add_element f pl st (p_solid_ids p) (t_solid_ids t) (t_solid_cons t) read_solid_element_ids read_solid_elements c_nodes;
  do ' (pl, st) <- add_element f pl st (p_beam_ids p) (t_beam_ids t) (t_beam_cons t) read_beam_element_ids read_beam_elements bc_nodes;
  do ' (pl, st) <- add_element f pl st (p_shell_ids p) (t_shell_ids t) (t_shell_cons t) read_shell_element_ids read_shell_elements c_nodes;
  do ' (pl, st) <- add_element f pl st (p_thick_shell_ids p) (t_thick_shell_ids t) (t_thick_shell_cons t) read_thick_shell_element_ids read_thick_shell_elements c_nodes;
  do l <- build (cell (n_cells st)) (n_num st) 0;
  OK (pl, l).
(** node_ids[node_index] *)
Definition node_lookup (node_ids : list Z) (node_index : Z) : res Z := if node_index <? Z.of_nat (length node_ids) then aget node_ids (Z.to_nat node_index) else UB.
(** d3plot_part_nodes.c:28-77; an empty array of node ids that has been read is NULL. *)
Definition part_get_node_ids2 (pl : plot) (p : part) (node_ids : option (list Z)) (t : tables) : res (plot * list Z) :=
  let pl := clear pl in
  do ' (pl, node_ids) <- match node_ids with Some l => OK (pl, l) | None => read_node_ids pl end;
  match pl_err pl with
  | Some _ => OK (pl, [])
  | None => part_nodes (node_lookup node_ids) pl p t
  end.
(** d3plot_part_nodes.c:79-109 *)
Definition part_get_node_indices2 (pl : plot) (p : part) (t : tables) : res (plot * list Z) := part_nodes (fun i => OK i) (clear pl) p t.
(** d3plot_part_nodes.c:111-129 *)
Definition part_get_num_nodes2 (pl : plot) (p : part) (t : tables) : res (plot * nat) :=
  do ' (pl, l) <- part_get_node_indices2 pl p t; OK (pl, length l).
(** d3plot_part_nodes.c:131-134 *)
Definition part_get_num_elements (p : part) : nat := (length (p_solid_ids p) + length (p_thick_shell_ids p) + length (p_beam_ids p) + length (p_shell_ids p))%nat.

(** ** All element ids *)
(** memcpy(&dst[to], &dst[from], n) inside of one array: undefined if the regions
    overlap. *)
Definition memcpy_within {A} (dst : list A) (to from n : nat) : res (list A) :=
  if ((n =? 0) || (from + n <=? to) || (to + n <=? from))%nat then memcpy dst to dst from n else UB.
(** d3plot.c:3344-3346 *)
Fixpoint gap_index (fuel : nat) (dst : list Z) (dst_size : nat) (src_min : Z) (i : nat) : res nat :=
  match fuel with
  | O => OOF
  | S fuel =>
    if (i <? dst_size)%nat then
      do a <- aget dst (i - 1); do c <- aget dst i;
      if (a <? src_min) && (c >? src_min) then OK i else gap_index fuel dst dst_size src_min (i + 1)
    else OK i
  end.
(** d3plot.c:3329-3354, dst is not NULL and has room for both after realloc;
    [JUNK] fills the cells behind dst_size. *)
Definition insert_into (dst : list Z) (dst_size : nat) (src : list Z) : res (list Z) :=
  let src_size := length src in
  do dst_min <- aget dst 0; do dst_max <- match dst_size with O => UB | S l => aget dst l end;
  do src_min <- aget src 0; do src_max <- aget src (src_size - 1);
  let dst := realloc dst (dst_size + src_size) in
  if src_max <=? dst_min then
    do dst <- memcpy_within dst src_size 0 dst_size; memcpy dst 0 src 0 src_size
  else if src_min >=? dst_max then memcpy dst dst_size src 0 src_size
  else
    do i <- gap_index (S dst_size) dst dst_size src_min 1;
    do dst <- memcpy_within dst (i + src_size) i (dst_size - i); memcpy dst i src 0 src_size.
(** d3plot.c:3313-3354 *)
Definition insert_sorted (dst : option (list Z)) (src : list Z) : res (list Z) :=
  match dst with None => OK src | Some dst => insert_into dst (length dst) src end.
(** d3plot.c:542-573: one element type; the error of the reader stays. *)
Definition add_ids (pl : plot) (all : option (list Z)) (reader : plot -> res (plot * list Z)) : res (plot * option (list Z)) :=
  do ' (pl, ids) <- reader pl;
  match ids with [] => OK (pl, all) | _ => do l <- insert_sorted all ids; OK (pl, Some l) end.
(** d3plot.c:537-577 *)
Definition read_all_element_ids (pl : plot) : res (plot * list Z) :=
  do ' (pl, all) <- add_ids pl None read_solid_element_ids;
  do ' (pl, all) <- add_ids pl all read_beam_element_ids;
  do ' (pl, all) <- add_ids pl all read_shell_element_ids;
  do ' (pl, all) <- add_ids pl all read_thick_shell_element_ids;
  OK (pl, or_null all).
(** d3plot_part_nodes.c:136-187.  The result of _insert_sorted is ignored: [moves
    old new] says whether realloc from [old] to [new] cells moves the block; then
    the array that is used and returned is freed memory.  Otherwise it has the
    new size. *)
Definition insert_ignored (moves : nat -> nat -> bool) (all : list Z) (size : nat) (src : list Z) : res (list Z) :=
  if moves (length all) (size + length src)%nat then UB else insert_into all size src.
Fixpoint part_all (moves : nat -> nat -> bool) (all : list Z) (size : nat) (l : list (list Z)) : res (list Z) :=
  match l with
  | [] => OK all
  | [] :: r => part_all moves all size r
  | src :: r =>
    do all <- match size with O => memcpy all 0 src 0 (length src) | _ => insert_ignored moves all size src end;
    part_all moves all (size + length src) r
  end.
Definition part_get_all_element_ids (moves : nat -> nat -> bool) (p : part) : res (list Z) :=
  part_all moves (malloc (part_get_num_elements p)) 0 [p_solid_ids p; p_thick_shell_ids p; p_beam_ids p; p_shell_ids p].
