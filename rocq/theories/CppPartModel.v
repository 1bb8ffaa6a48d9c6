(** * Model of the value semantics of dro::D3plotPart (src/cpp/d3plot_part.cpp)

    A part has eight arrays; [malloc] followed by [memcpy] into the new block
    is one step ([h_malloc] with the contents).  d3_word and size_t elements
    are both numbers. *)
From Verif Require Import CBase CppArrayModel OwnModel.

(** d3_defines.h (d3plot_part): the arrays, in the order d3plot_free_part
    frees them. *)
Definition SOLID_IDS := 0.
Definition THICK_IDS := 1.
Definition BEAM_IDS := 2.
Definition SHELL_IDS := 3.
Definition SOLID_INDICES := 4.
Definition THICK_INDICES := 5.
Definition BEAM_INDICES := 6.
Definition SHELL_INDICES := 7.

(** The pointers and num_solids, num_thick_shells, num_beams, num_shells. *)
Record part := { p_data : list (option ptr); p_num : list nat }.
Definition p_ptr (p : part) (f : nat) : option ptr := nth f (p_data p) None.
(** ids and indices of one kind of element have the same count. *)
Definition p_count (p : part) (f : nat) : nat := nth (f mod 4) (p_num p) 0.

(** A d3plot_part returned by d3plot_read_part (d3plot.c:2988-3033): an array
    is allocated if and only if the part has elements of that kind. *)
Fixpoint adopt_arrays (h : heap) (cs : list (list Z)) : heap * list (option ptr) :=
  match cs with
  | [] => (h, [])
  | c :: t =>
    let '(h, p) := match c with [] => (h, None) | _ => let '(h, p) := h_malloc h c in (h, Some p) end in
    let '(h, ps) := adopt_arrays h t in (h, p :: ps)
  end.
(** d3plot_part.cpp:37 [D3plotPart(const d3plot_part&)] *)
Definition part_adopt (h : heap) (cs : list (list Z)) : heap * part :=
  let '(h, ps) := adopt_arrays h cs in (h, {| p_data := ps; p_num := map (@length Z) (firstn 4 cs) |}).

(** d3plot_part.cpp:39 [~D3plotPart()], d3plot.c:3356-3381 [d3plot_free_part] *)
Definition part_destroy (h : heap) (p : part) : res heap :=
  h_free_all h [p_ptr p SOLID_IDS; p_ptr p THICK_IDS; p_ptr p BEAM_IDS; p_ptr p SHELL_IDS;
                p_ptr p SOLID_INDICES; p_ptr p THICK_INDICES; p_ptr p BEAM_INDICES; p_ptr p SHELL_INDICES].

(** [d3plot_part{0}] *)
Definition part_zero : part := {| p_data := repeat None 8; p_num := repeat 0 4 |}.

(** d3plot_part.cpp:41-45 [operator=(D3plotPart&&)] for two different objects:
    the new target and the new source. *)
Definition part_move (rhs : part) : part * part := (rhs, part_zero).

(** malloc and memcpy of one array. *)
Definition copy_array (h : heap) (r : part) (f : nat) : res (heap * option ptr) :=
  do c <- h_slice h (p_ptr r f) (p_count r f); let '(h, p) := h_malloc h c in OK (h, Some p).

(** d3plot_part.cpp:47-92 [operator=(const D3plotPart&)] for two different
    objects.  Lines 52 and 60 both allocate thick_shell_ids; nothing
    allocates thick_shell_indices, so that 75 copies the source's array onto
    itself (memcpy of a block onto itself is taken to be harmless). *)
Definition part_copy (h : heap) (r : part) : res (heap * part) :=
  do ' (h, solid_ids) <- copy_array h r SOLID_IDS;
  let '(h, _) := h_malloc h (malloc (p_count r THICK_IDS)) in
  do ' (h, beam_ids) <- copy_array h r BEAM_IDS;
  do ' (h, shell_ids) <- copy_array h r SHELL_IDS;
  do ' (h, solid_indices) <- copy_array h r SOLID_INDICES;
  do ' (h, thick_ids) <- copy_array h r THICK_IDS;
  do ' (h, beam_indices) <- copy_array h r BEAM_INDICES;
  do ' (h, shell_indices) <- copy_array h r SHELL_INDICES;
  do _ <- h_slice h (p_ptr r THICK_INDICES) (p_count r THICK_INDICES);
  OK (h, {| p_data := [solid_ids; thick_ids; beam_ids; shell_ids; solid_indices; p_ptr r THICK_INDICES; beam_indices; shell_indices];
            p_num := p_num r |}).

(** The same with [this == &rhs]: the pointers are replaced before anything
    is copied. *)
Definition part_copy_self (h : heap) (r : part) : heap * part :=
  let new h f := h_malloc h (malloc (p_count r f)) in
  let '(h, solid_ids) := new h SOLID_IDS in
  let '(h, _) := new h THICK_IDS in
  let '(h, beam_ids) := new h BEAM_IDS in
  let '(h, shell_ids) := new h SHELL_IDS in
  let '(h, solid_indices) := new h SOLID_INDICES in
  let '(h, thick_ids) := new h THICK_IDS in
  let '(h, beam_indices) := new h BEAM_INDICES in
  let '(h, shell_indices) := new h SHELL_INDICES in
  (h, {| p_data := [Some solid_ids; Some thick_ids; Some beam_ids; Some shell_ids; Some solid_indices; p_ptr r THICK_INDICES; Some beam_indices; Some shell_indices];
         p_num := p_num r |}).

(** d3plot_part.cpp:94-127: the arrays returned by the eight getters do not
    own their memory. *)
Definition part_view (p : part) (f : nat) : arr := {| a_data := p_ptr p f; a_size := p_count p f; a_del := false |}.

(** A program with parts. *)
Inductive pop :=
| PAdopt (cs : list (list Z))         (* plot.read_part(...) *)
| PMoveNew (j : nat)
| PCopyNew (j : nat)
| PMoveTo (i j : nat)
| PCopyTo (i j : nat)
| PGet (j f k : nat)                  (* j.get_...()[k] *)
| PSet (j f k : nat) (v : Z)          (* j.get_...()[k] = v *)
| PSize (j f : nat)                   (* j.get_...().size() *)
| PDestroy (j : nat).

Definition pstep (s : store part) (o : pop) : res (store part * seen) :=
  match o with
  | PAdopt cs => let '(h, p) := part_adopt (st_heap s) cs in OK (new_obj s h p, Nothing)
  | PMoveNew j => do r <- get_obj s j;
    let '(a, r') := part_move r in do s <- put_obj s (st_heap s) j (Some r'); OK (new_obj s (st_heap s) a, Nothing)
  | PCopyNew j => do r <- get_obj s j; do ' (h, a) <- part_copy (st_heap s) r; OK (new_obj s h a, Nothing)
  | PMoveTo i j => do r <- get_obj s j; do _ <- get_obj s i;
    if i =? j then do s <- put_obj s (st_heap s) i (Some part_zero); OK (s, Nothing)
    else let '(a, r') := part_move r in
      do s <- put_obj s (st_heap s) i (Some a); do s <- put_obj s (st_heap s) j (Some r'); OK (s, Nothing)
  | PCopyTo i j => do r <- get_obj s j; do _ <- get_obj s i;
    if i =? j then let '(h, a) := part_copy_self (st_heap s) r in do s <- put_obj s h i (Some a); OK (s, Nothing)
    else do ' (h, a) <- part_copy (st_heap s) r; do s <- put_obj s h i (Some a); OK (s, Nothing)
  (* the returned array is destroyed at the end of the expression *)
  | PGet j f k => do p <- get_obj s j; do r <- arr_get (st_heap s) (part_view p f) k;
    do h <- arr_destroy (st_heap s) (part_view p f); OK ({| st_heap := h; st_objs := st_objs s |}, r)
  | PSet j f k x => do p <- get_obj s j; do ' (h, r) <- arr_set (st_heap s) (part_view p f) k x;
    do h <- arr_destroy h (part_view p f); OK ({| st_heap := h; st_objs := st_objs s |}, r)
  | PSize j f => do p <- get_obj s j; do h <- arr_destroy (st_heap s) (part_view p f);
    OK ({| st_heap := h; st_objs := st_objs s |}, Size (a_size (part_view p f)))
  | PDestroy j => do p <- get_obj s j; do h <- part_destroy (st_heap s) p; do s <- put_obj s h j None; OK (s, Nothing)
  end.
Definition prun : store part -> list pop -> res (store part * list seen) := exec pstep.
