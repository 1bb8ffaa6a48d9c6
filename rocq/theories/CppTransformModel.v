(** * Model of the value semantics of dro::IncludeTransform and
    dro::DefineTransformation (src/cpp/include_transform.cpp)

    A C string is a block with its characters (the terminator is left out).
    What the cards of a keyword mean is TransformModel.v (C22); here the
    parsed strings and numbers are given and their memory is modelled. *)
From Verif Require Import CBase CppArrayModel OwnModel.

(** strdup *)
Definition strdup (h : heap) (p : option ptr) : res (heap * option ptr) :=
  match p with
  | None => UB
  | Some (b, o) => do c <- aget h b;
    match c with Some c => let '(h, q) := h_malloc h (skipn o c) in OK (h, Some q) | None => UB end
  end.
(** [if (x) y = strdup(x)] for a [y] that equals [x] before. *)
Definition strdup_opt (h : heap) (p : option ptr) : res (heap * option ptr) :=
  match p with None => OK (h, None) | _ => strdup h p end.
Fixpoint strdup_opts (h : heap) (ps : list (option ptr)) : res (heap * list (option ptr)) :=
  match ps with
  | [] => OK (h, [])
  | p :: t => do ' (h, q) <- strdup_opt h p; do ' (h, qs) <- strdup_opts h t; OK (h, q :: qs)
  end.
(** Strings allocated by the parsing functions ([None]: NULL). *)
Fixpoint alloc_strings (h : heap) (ss : list (option (list Z))) : heap * list (option ptr) :=
  match ss with
  | [] => (h, [])
  | s :: t =>
    let '(h, p) := match s with None => (h, None) | Some c => let '(h, p) := h_malloc h c in (h, Some p) end in
    let '(h, ps) := alloc_strings h t in (h, p :: ps)
  end.
(** String::str() and size() of a String that is a view of [p]: strlen and
    std::string(const char ptr) of a null pointer are undefined (array.hpp:173-176). *)
Definition str_read (h : heap) (p : option ptr) : res (list Z) :=
  match p with
  | None => UB
  | Some (b, o) => do c <- aget h b; match c with Some c => OK (skipn o c) | None => UB end
  end.

(** What a caller sees. *)
Inductive tseen := TNothing | TStr (s : list Z) | TNums (l : list Z) | TThrown | TOption (name : list Z) (params : list Z).

(** ** IncludeTransform *)

(** include_transform.h (include_transform_t): the four strings; the thirteen
    numbers are one list. *)
Definition FILE_NAME := 0.
Definition PREFIX := 1.
Definition SUFFIX := 2.
Definition FCTTEM := 3.
Record itf := { i_str : list (option ptr); i_num : list Z }.
Definition i_ptr (a : itf) (f : nat) : option ptr := nth f (i_str a) None.

(** include_transform.cpp:6 [m_handle = {0}] *)
Definition it_zero : itf := {| i_str := repeat None 4; i_num := repeat 0%Z 13 |}.

(** include_transform.cpp:16-18, include_transform.c:32-62 *)
Definition it_parse (h : heap) (ss : list (option (list Z))) (ns : list Z) : heap * itf :=
  let '(h, ps) := alloc_strings h ss in (h, {| i_str := ps; i_num := ns |}).

(** include_transform.cpp:20-22, include_transform.c:210-226 [key_free_include_transform] *)
Definition it_destroy (h : heap) (a : itf) : res heap :=
  h_free_all h [i_ptr a FILE_NAME; i_ptr a PREFIX; i_ptr a SUFFIX].

(** include_transform.cpp:24-28 [operator=(IncludeTransform&&)]: the new
    target and the new source. *)
Definition it_move (rhs : itf) : itf * itf := (rhs, it_zero).

(** include_transform.cpp:30-42 [operator=(const IncludeTransform&)]; also for
    [this == &rhs], as every member is read before it is replaced. *)
Definition it_copy (h : heap) (r : itf) : res (heap * itf) :=
  do ' (h, file_name) <- strdup h (i_ptr r FILE_NAME);
  do ' (h, prefix) <- strdup_opt h (i_ptr r PREFIX);
  do ' (h, suffix) <- strdup_opt h (i_ptr r SUFFIX);
  do ' (h, fcttem) <- strdup_opt h (i_ptr r FCTTEM);
  OK (h, {| i_str := [file_name; prefix; suffix; fcttem]; i_num := i_num r |}).

(** include_transform.cpp:44-47, include_transform.c:66-133: a card replaces
    the members it has a field for ([ss]: [None] where the card has no
    string) without freeing them. *)
Definition it_card (h : heap) (a : itf) (ss : list (option (list Z))) (ns : list Z) : heap * itf :=
  let '(h, ps) := alloc_strings h ss in
  (h, {| i_str := map (fun pq => match fst pq with Some p => Some p | None => snd pq end) (combine ps (i_str a)); i_num := ns |}).

Inductive iop :=
| INew
| IParse (ss : list (option (list Z))) (ns : list Z)   (* IncludeTransform(keyword) *)
| IMoveNew (j : nat)
| ICopyNew (j : nat)
| IMoveTo (i j : nat)
| ICopyTo (i j : nat)
| ICard (j : nat) (ss : list (option (list Z))) (ns : list Z)
| IStr (j f : nat)                                     (* j.get_...().str() *)
| INums (j : nat)
| IDestroy (j : nat).

Definition istep (s : store itf) (o : iop) : res (store itf * tseen) :=
  match o with
  | INew => OK (new_obj s (st_heap s) it_zero, TNothing)
  | IParse ss ns => let '(h, a) := it_parse (st_heap s) ss ns in OK (new_obj s h a, TNothing)
  | IMoveNew j => do r <- get_obj s j;
    let '(a, r') := it_move r in do s <- put_obj s (st_heap s) j (Some r'); OK (new_obj s (st_heap s) a, TNothing)
  | ICopyNew j => do r <- get_obj s j; do ' (h, a) <- it_copy (st_heap s) r; OK (new_obj s h a, TNothing)
  | IMoveTo i j => do r <- get_obj s j; do _ <- get_obj s i;
    let '(a, r') := it_move r in
    do s <- put_obj s (st_heap s) i (Some a); do s <- put_obj s (st_heap s) j (Some r'); OK (s, TNothing)
  | ICopyTo i j => do r <- get_obj s j; do _ <- get_obj s i;
    do ' (h, a) <- it_copy (st_heap s) r; do s <- put_obj s h i (Some a); OK (s, TNothing)
  | ICard j ss ns => do a <- get_obj s j; let '(h, a) := it_card (st_heap s) a ss ns in
    do s <- put_obj s h j (Some a); OK (s, TNothing)
  | IStr j f => do a <- get_obj s j; do c <- str_read (st_heap s) (i_ptr a f); OK (s, TStr c)
  | INums j => do a <- get_obj s j; OK (s, TNums (i_num a))
  | IDestroy j => do a <- get_obj s j; do h <- it_destroy (st_heap s) a; do s <- put_obj s h j None; OK (s, TNothing)
  end.
Definition irun : store itf -> list iop -> res (store itf * list tseen) := exec istep.

(** ** DefineTransformation *)

(** A member that may be uninitialised. *)
Inductive mem (A : Type) := Known (a : A) | Unknown.
Arguments Known {A}. Arguments Unknown {A}.
Definition known {A} (m : mem A) : res A := match m with Known a => OK a | Unknown => UB end.

(** include_transform.h (define_transformation_t).  The array of options is a
    block with the seven parameters of every option; the name pointers in the
    block are kept in [d_names] ([num_options] is their number). *)
Record dtf := { d_tranid : mem Z; d_title : mem (option ptr); d_options : mem (option ptr); d_names : mem (list (option ptr)) }.

(** include_transform.cpp:64 [m_handle = {0}] *)
Definition dt_zero : dtf := {| d_tranid := Known 0%Z; d_title := Known None; d_options := Known None; d_names := Known [] |}.
(** The members of an object before its constructor's body. *)
Definition dt_raw : dtf := {| d_tranid := Unknown; d_title := Unknown; d_options := Unknown; d_names := Unknown |}.

(** include_transform.cpp:76-80, include_transform.c:135-154: what the keyword
    has: number, title, options. *)
Definition dt_parse (h : heap) (id : Z) (title : option (list Z)) (opts : list (list Z * list Z)) : heap * dtf :=
  let '(h, t) := alloc_strings h [title] in
  let '(h, names) := alloc_strings h (map (fun o => Some (fst o)) opts) in
  let '(h, options) := match opts with [] => (h, None) | _ => let '(h, p) := h_malloc h (concat (map snd opts)) in (h, Some p) end in
  (h, {| d_tranid := Known id; d_title := Known (nth 0 t None); d_options := Known options; d_names := Known names |}).

(** The name pointers are read from the block. *)
Definition names_of (h : heap) (options : option ptr) (names : list (option ptr)) : res (list (option ptr)) :=
  match names with [] => OK [] | _ => do _ <- str_read h options; OK names end.

(** include_transform.cpp:82-84, include_transform.c:228-241 [key_free_define_transformation] *)
Definition dt_destroy (h : heap) (a : dtf) : res heap :=
  do names <- known (d_names a); do options <- known (d_options a);
  do names <- names_of h options names;
  do h <- h_free_all h names;
  do h <- h_free_opt h options;
  do title <- known (d_title a); h_free_opt h title.

(** include_transform.cpp:86-91 *)
Definition dt_move (rhs : dtf) : dtf * dtf := (rhs, dt_zero).

(** include_transform.cpp:93-112 [operator=(const DefineTransformation&)] onto
    [a], a different object (or the members of a new one). *)
Definition dt_copy (h : heap) (a r : dtf) : res (heap * dtf) :=
  do rtitle <- known (d_title r);
  do ' (h, title) <- (match rtitle with Some _ => do ' (h, q) <- strdup h rtitle; OK (h, Known q) | None => OK (h, d_title a) end);
  do rnames <- known (d_names r); do roptions <- known (d_options r);
  match rnames, roptions with
  | _ :: _, Some _ =>
    do params <- str_read h roptions;
    let '(h, p) := h_malloc h params in
    do ' (h, names) <- strdup_opts h rnames;
    OK (h, {| d_tranid := d_tranid r; d_title := title; d_options := Known (Some p); d_names := Known names |})
  | _, _ => OK (h, {| d_tranid := d_tranid r; d_title := title; d_options := d_options a; d_names := d_names a |})
  end.
(** The same with [this == &rhs]: the names are read from the new array. *)
Definition dt_copy_self (h : heap) (a : dtf) : res (heap * dtf) :=
  do names <- known (d_names a); do options <- known (d_options a);
  match names, options with
  | _ :: _, Some _ => UB
  | _, _ => dt_copy h a a
  end.

(** include_transform.c:156-208: an option card.  The array grows by realloc. *)
Definition dt_option_card (h : heap) (a : dtf) (name params : list Z) : res (heap * dtf) :=
  do names <- known (d_names a); do options <- known (d_options a);
  do old <- (match options with None => OK [] | Some _ => str_read h options end);
  do names <- names_of h options names;
  let '(h, q) := h_malloc h name in
  do h <- h_free_opt h options;
  let '(h, p) := h_malloc h (old ++ params) in
  OK (h, {| d_tranid := d_tranid a; d_title := d_title a; d_options := Known (Some p); d_names := Known (names ++ [Some q]) |}).

Inductive dop :=
| DNew
| DParse (id : Z) (title : option (list Z)) (opts : list (list Z * list Z))
| DMoveNew (j : nat)
| DCopyNew (j : nat)
| DMoveTo (i j : nat)
| DCopyTo (i j : nat)
| DCard (j : nat) (name params : list Z)
| DId (j : nat)
| DTitle (j : nat)
| DOption (j k : nat)                  (* name and parameters of j.get_raw_options()[k] *)
| DDestroy (j : nat).

(** include_transform.hpp: get_title throws without a title; option [k]: its
    name and its seven parameters. *)
Definition dt_title_of (h : heap) (a : dtf) : res tseen :=
  do t <- known (d_title a); match t with None => OK TThrown | _ => do c <- str_read h t; OK (TStr c) end.
Definition dt_option (h : heap) (a : dtf) (k : nat) : res tseen :=
  do names <- known (d_names a); do options <- known (d_options a);
  if k <? length names then
    do params <- str_read h options; do p <- aget names k; do n <- str_read h p;
    OK (TOption n (firstn 7 (skipn (7 * k) params)))
  else OK TThrown.

Definition dstep (s : store dtf) (o : dop) : res (store dtf * tseen) :=
  match o with
  | DNew => OK (new_obj s (st_heap s) dt_zero, TNothing)
  | DParse id t os => let '(h, a) := dt_parse (st_heap s) id t os in OK (new_obj s h a, TNothing)
  | DMoveNew j => do r <- get_obj s j;
    let '(a, r') := dt_move r in do s <- put_obj s (st_heap s) j (Some r'); OK (new_obj s (st_heap s) a, TNothing)
  | DCopyNew j => do r <- get_obj s j; do ' (h, a) <- dt_copy (st_heap s) dt_raw r; OK (new_obj s h a, TNothing)
  | DMoveTo i j => do r <- get_obj s j; do _ <- get_obj s i;
    let '(a, r') := dt_move r in
    do s <- put_obj s (st_heap s) i (Some a); do s <- put_obj s (st_heap s) j (Some r'); OK (s, TNothing)
  | DCopyTo i j => do r <- get_obj s j; do a <- get_obj s i;
    do ' (h, a) <- (if i =? j then dt_copy_self (st_heap s) r else dt_copy (st_heap s) a r);
    do s <- put_obj s h i (Some a); OK (s, TNothing)
  | DCard j name params => do a <- get_obj s j; do ' (h, a) <- dt_option_card (st_heap s) a name params;
    do s <- put_obj s h j (Some a); OK (s, TNothing)
  | DId j => do a <- get_obj s j; do i <- known (d_tranid a); OK (s, TNums [i])
  | DTitle j => do a <- get_obj s j; do r <- dt_title_of (st_heap s) a; OK (s, r)
  | DOption j k => do a <- get_obj s j; do r <- dt_option (st_heap s) a k; OK (s, r)
  | DDestroy j => do a <- get_obj s j; do h <- dt_destroy (st_heap s) a; do s <- put_obj s h j None; OK (s, TNothing)
  end.
Definition drun : store dtf -> list dop -> res (store dtf * list tseen) := exec dstep.
