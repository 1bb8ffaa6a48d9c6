(** * Model of the C++ objects for element states

    /repo/src/cpp/d3plot.cpp 359-393, /repo/src/cpp/d3plot_state.hpp,
    /repo/src/cpp/d3plot_state.cpp: dro::Array<D3plotShell>,
    dro::Array<D3plotThickShell> and dro::D3plotSurface; Array<T> is that of
    array.hpp 314-386.  Memory is that of CppArrayModel.v and ElemMemModel.v.
    A plot is a value here: what reading does to its handle is the subject of
    CppHandleModel.v. *)
From Verif Require Import CBase BinModel D3BufModel D3Model D3ReadModel D3ElemModel CppArrayModel OwnModel ElemMemModel.
Open Scope Z_scope.

(** What shells and thick shells have in common. *)
Record kind (A : Type) : Type := {
  k_layers : A -> layers; k_nhv : A -> Z; k_nadd : A -> Z;
  k_index : Z -> Z;          (* the parameter of get_add_ip_history_variables *)
  k_mem : heap -> plot -> nat -> res (heap * plot * option (elems A)) }.
Arguments k_layers {A}. Arguments k_nhv {A}. Arguments k_nadd {A}. Arguments k_index {A}. Arguments k_mem {A}.

(** d3plot_state.hpp:52: size_t; 78: uint8_t *)
Definition shells : kind shell := {| k_layers := sh_layers; k_nhv := sh_nhv; k_nadd := sh_nadd; k_index := u64; k_mem := read_shells_mem |}.
Definition thick_shells : kind thick_shell := {| k_layers := ts_layers; k_nhv := ts_nhv; k_nadd := ts_nadd; k_index := u8; k_mem := read_thick_shells_mem |}.

(** Array<D3plotShell>, Array<D3plotThickShell>; m_data = nullptr: [None]. *)
Record earr (A : Type) : Type := { ea_data : option (elems A); ea_size : nat; ea_del : bool }.
Arguments ea_data {A}. Arguments ea_size {A}. Arguments ea_del {A}.
Definition no_elems {A} : earr A := {| ea_data := None; ea_size := 0; ea_del := false |}.

(** The objects of a program: arrays of elements, mean surfaces (of which only
    the pointer history_variables matters here), arrays of numbers. *)
Inductive cobj (A : Type) : Type := CElems (a : earr A) | CSurf (p : option ptr) | CNums (a : arr).
Arguments CElems {A}. Arguments CSurf {A}. Arguments CNums {A}.

Section Kind.
Context {A : Type} (k : kind A).

(** d3plot_state.cpp:42-47, 83-89 [~Array<D3plotShell>], [~Array<D3plotThickShell>] *)
Definition earr_destroy (h : heap) (a : earr A) : res heap :=
  if ea_del a then free_elems (k_layers k) h (ea_data a) else OK h.

(** array.hpp:379-386 for these arrays: the structs are copied, the pointers in
    them stay the same. *)
Definition with_block (e : elems A) (p : ptr) : elems A :=
  {| el_structs := el_structs e; el_hists := el_hists e; el_adds := el_adds e; el_block := p; el_hist := el_hist e; el_add := el_add e |}.
Definition earr_copy (h : heap) (a : earr A) : res (heap * earr A) :=
  do c <- h_slice h (option_map el_block (ea_data a)) (ea_size a);
  let '(h, p) := h_malloc h c in
  OK (h, {| ea_data := Some match ea_data a with
                            | Some e => with_block e p
                            | None => {| el_structs := []; el_hists := []; el_adds := []; el_block := p; el_hist := p; el_add := None |}
                            end;
            ea_size := ea_size a; ea_del := true |}).
(** The same with [this == &rhs]: the structs are those of a new block, no member of them
    is set. *)
Definition earr_copy_self (h : heap) (a : earr A) : heap * earr A :=
  let '(h, p) := h_malloc h (malloc (ea_size a)) in
  (h, {| ea_data := Some {| el_structs := []; el_hists := []; el_adds := []; el_block := p; el_hist := p; el_add := None |};
         ea_size := ea_size a; ea_del := true |}).

(** array.hpp:333-347 [operator[]]; [None]: it throws. *)
Definition earr_at (h : heap) (a : earr A) (i : nat) : res (option (elems A * A)) :=
  if (ea_size a =? 0)%nat || (ea_size a - 1 <? i)%nat then OK None else
  match ea_data a with
  | None => UB
  | Some e => do _ <- h_read h (Some (el_block e)) i; do x <- aget (el_structs e) i; OK (Some (e, x))
  end.

(** history_variables of the mid, inner and outer surface and of add_ips[j - 3]. *)
Definition layer_hist (h : heap) (e : elems A) (x : A) (j : nat) : res (option ptr) :=
  match j with
  | O => do s <- init (l_mid (k_layers k x)); OK (surface_hist e s)
  | 1%nat => do s <- init (l_inner (k_layers k x)); OK (surface_hist e s)
  | 2%nat => do s <- init (l_outer (k_layers k x)); OK (surface_hist e s)
  | S (S (S i)) =>
    match struct_adds e (k_layers k x) with
    | None => UB
    | Some p => do _ <- h_read h (Some p) i; do s <- aget (el_adds e) (snd p + i); do s <- init s; OK (surface_hist e s)
    end
  end.

(** d3plot_state.hpp:42-50, 68-76: an array that does not own its memory. *)
Definition hist_view (x : A) (p : option ptr) : arr := {| a_data := p; a_size := Z.to_nat (k_nhv k x); a_del := false |}.
(** An element of the array, which is destroyed then (array.hpp:326-331). *)
Definition view_get (h : heap) (v : arr) (n : nat) : res (heap * seen) :=
  do r <- arr_get h v n; do h <- arr_destroy h v; OK (h, r).
(** d3plot_state.cpp:55-69, 98-113 [get_add_ip_history_variables]; [None]: it
    throws. *)
Definition add_hist (h : heap) (e : elems A) (x : A) (i : Z) : res (option arr) :=
  let i := k_index k i in
  if k_nadd k x <=? i then OK None else do p <- layer_hist h e x (3 + Z.to_nat i); OK (Some (hist_view x p)).

(** d3plot_state.c:346-380: the reads of the mean.  [fadd], [fdiv], [of_int]: see
    D3ElemModel.v. *)
Fixpoint mean_reads (h : heap) (e : elems A) (x : A) (n j : nat) : res unit :=
  match n with
  | O => OK tt
  | S n => do p <- layer_hist h e x j; do _ <- h_slice h p (Z.to_nat (k_nhv k x)); mean_reads h e x n (S j)
  end.
Definition mean_hist (fadd fdiv : Z -> Z -> Z) (of_int : Z -> Z) (h : heap) (e : elems A) (x : A) : res (heap * option ptr) :=
  do _ <- mean_reads h e x (Z.to_nat (3 + k_nadd k x)) 0;
  do ' (_, _, hv) <- get_mean fadd fdiv of_int (k_layers k x) (k_nhv k x) (k_nadd k x) (el_hists e) (el_adds e);
  if k_nhv k x =? 0 then OK (h, None) else let '(h, p) := h_malloc h hv in OK (h, Some p).

(** A program. *)
Inductive eop :=
| ERead (pl : plot) (state : nat)    (* plot.read_shells_state(state) *)
| EMoveNew (j : nat) | ECopyNew (j : nat) | EMoveTo (i j : nat) | ECopyTo (i j : nat)
| ESize (j : nat)
| EHist (j i l n : nat)              (* j[i].get_mid_history_variables()[n]; l = 1: inner, 2: outer *)
| EAddHist (j i : nat) (l : Z) (n : nat)  (* j[i].get_add_ip_history_variables(l)[n] *)
| EMean (j i : nat)                  (* D3plotSurface(j[i].get_mean()) *)
| EMeanHist (j i : nat)              (* j[i].get_mean_history_variables() *)
| ECopySurf (j : nat)                (* D3plotSurface(j) *)
| ESurf (j n : nat)                  (* j.history_variables[n] *)
| ENum (j n : nat)                   (* j[n] *)
| EDestroy (j : nat).

Variables (fadd fdiv : Z -> Z -> Z) (of_int : Z -> Z).
Definition elems_obj (s : OwnModel.store (cobj A)) (j : nat) : res (earr A) :=
  do o <- get_obj s j; match o with CElems a => OK a | _ => UB end.
Definition surf_obj (s : OwnModel.store (cobj A)) (j : nat) : res (option ptr) :=
  do o <- get_obj s j; match o with CSurf p => OK p | _ => UB end.

Definition estep (s : OwnModel.store (cobj A)) (o : eop) : res (OwnModel.store (cobj A) * seen) :=
  match o with
  | ERead pl state =>
    (* d3plot.cpp:359-370, 383-393; num_elements is 0 if there is no data *)
    do ' (h, pl', e) <- k_mem k (st_heap s) pl state;
    match pl_err pl' with
    | Some _ => OK ({| st_heap := h; st_objs := st_objs s |}, Thrown)
    | None => OK (new_obj s h (CElems {| ea_data := e; ea_size := match e with Some e => length (el_structs e) | None => 0%nat end; ea_del := true |}), Nothing)
    end
  | EMoveNew j => do a <- elems_obj s j; do s <- put_obj s (st_heap s) j (Some (CElems no_elems)); OK (new_obj s (st_heap s) (CElems a), Nothing)
  | ECopyNew j => do a <- elems_obj s j; do ' (h, a) <- earr_copy (st_heap s) a; OK (new_obj s h (CElems a), Nothing)
  | EMoveTo i j => do a <- elems_obj s j; do _ <- elems_obj s i;
    do s <- put_obj s (st_heap s) i (Some (CElems a)); do s <- put_obj s (st_heap s) j (Some (CElems no_elems)); OK (s, Nothing)
  | ECopyTo i j => do a <- elems_obj s j; do _ <- elems_obj s i;
    if (i =? j)%nat then let '(h, a) := earr_copy_self (st_heap s) a in do s <- put_obj s h i (Some (CElems a)); OK (s, Nothing)
    else do ' (h, a) <- earr_copy (st_heap s) a; do s <- put_obj s h i (Some (CElems a)); OK (s, Nothing)
  | ESize j => do a <- elems_obj s j; OK (s, Size (ea_size a))
  | EHist j i l n => do a <- elems_obj s j; do x <- earr_at (st_heap s) a i;
    match x with
    | None => OK (s, Thrown)
    | Some (e, x) => if (2 <? l)%nat then UB else do p <- layer_hist (st_heap s) e x l; do ' (h, r) <- view_get (st_heap s) (hist_view x p) n; OK ({| st_heap := h; st_objs := st_objs s |}, r)
    end
  | EAddHist j i l n => do a <- elems_obj s j; do x <- earr_at (st_heap s) a i;
    match x with
    | None => OK (s, Thrown)
    | Some (e, x) => do v <- add_hist (st_heap s) e x l;
      match v with None => OK (s, Thrown) | Some v => do ' (h, r) <- view_get (st_heap s) v n; OK ({| st_heap := h; st_objs := st_objs s |}, r) end
    end
  | EMean j i => do a <- elems_obj s j; do x <- earr_at (st_heap s) a i;
    match x with
    | None => OK (s, Thrown)
    | Some (e, x) => do ' (h, p) <- mean_hist fadd fdiv of_int (st_heap s) e x; OK (new_obj s h (CSurf p), Nothing)
    end
  | EMeanHist j i => do a <- elems_obj s j; do x <- earr_at (st_heap s) a i;
    match x with
    | None => OK (s, Thrown)
    | Some (e, x) => do ' (h, p) <- mean_hist fadd fdiv of_int (st_heap s) e x;
      OK (new_obj s h (CNums {| a_data := p; a_size := Z.to_nat (k_nhv k x); a_del := true |}), Nothing)
    end
  | ECopySurf j => do p <- surf_obj s j; OK (new_obj s (st_heap s) (CSurf p), Nothing)
  | ESurf j n => do p <- surf_obj s j; do v <- h_read (st_heap s) p n; OK (s, Value v)
  | ENum j n => do o <- get_obj s j; match o with CNums a => do r <- arr_get (st_heap s) a n; OK (s, r) | _ => UB end
  | EDestroy j => do o <- get_obj s j;
    do h <- match o with
            | CElems a => earr_destroy (st_heap s) a
            | CSurf p => h_free_opt (st_heap s) p        (* d3plot_state.cpp:31-33, d3plot_state.c:469-475 *)
            | CNums a => arr_destroy (st_heap s) a
            end;
    do s <- put_obj s h j None; OK (s, Nothing)
  end.
Definition erun : OwnModel.store (cobj A) -> list eop -> res (OwnModel.store (cobj A) * list seen) := exec estep.
End Kind.

(** d3plot.cpp:372-381 [read_beams_state]: an Array<d3plot_beam>, whose destructor is
    the one of all arrays (array.hpp:326-331). *)
Definition beams_destroy (h : heap) (e : beams_mem) : res heap := h_free h (bm_block e).
