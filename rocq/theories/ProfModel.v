(** * Model of the profiler: /repo/src/profiling.c

    The library compiled with PROFILING measures sections of the code.  Memory is
    a list of blocks, each an array of profiling_stack_t or freed; realloc always
    moves.  Times are counted in ticks of clock() and exact (the code divides by
    CLOCKS_PER_SEC and uses double).  The flags disable and disable_stacking are 0:
    the library sets the first one only during the search for a name, where the
    sections of the search itself (which would recurse) return at once.  What END_PROFILING writes
    to stderr while sections run, the frame of the report and the text of a time are not modelled. *)
From Verif Require Import CBase SearchModel.
Open Scope nat_scope.

(** profiling.h:42-50 [profiling_stack_t] *)
Definition addr : Type := nat * nat.
Record pnode : Type := {
  p_name : cstr; p_exec : Z; p_prof : Z;
  p_subs : option nat; p_num : nat;      (* sub_executions, num_sub_executions *)
  p_parent : option addr }.
(** [None] inside of a block: not initialised. *)
Definition pheap : Type := list (option (list (option pnode))).
(** profiling.h:52-59 [profiling_context_t] *)
Record ctx : Type := { x_heap : pheap; x_cur : option addr; x_top : option nat; x_num : nat }.
Definition ctx0 : ctx := {| x_heap := []; x_cur := None; x_top := None; x_num := 0 |}.
(** profiling.h:61-66 [profiling_execution_t] *)
Record token : Type := { k_start : Z; k_prof_start : Z; k_should_end : bool; k_stack : option addr }.

Definition p_init {A} (c : option A) : res A := match c with Some x => OK x | None => UB end.
Definition block (h : pheap) (b : nat) : res (list (option pnode)) := do c <- aget h b; p_init c.
Definition node (h : pheap) (p : addr) : res pnode := do a <- block h (fst p); do n <- aget a (snd p); p_init n.
Definition put (h : pheap) (b : nat) (a : list (option pnode)) : res pheap := do _ <- block h b; aset h b (Some a).
Definition put_node (h : pheap) (p : addr) (n : pnode) : res pheap :=
  do a <- block h (fst p); do a <- aset a (snd p) (Some n); aset h (fst p) (Some a).
Definition p_malloc (h : pheap) (a : list (option pnode)) : pheap * nat := (h ++ [Some a], length h).
Definition p_free (h : pheap) (b : nat) : res pheap := do _ <- block h b; aset h b None.

(** profiling.c:83-84, 101-110: stack_array and stack_array_size point to the members of the
    current section or of the context. *)
Definition get_site (x : ctx) : res (option nat * nat) :=
  match x_cur x with
  | Some c => do n <- node (x_heap x) c; OK (p_subs n, p_num n)
  | None => OK (x_top x, x_num x)
  end.
Definition set_site (x : ctx) (h : pheap) (arr : option nat) (num : nat) : res ctx :=
  match x_cur x with
  | Some c => do n <- node h c;
    do h <- put_node h c {| p_name := p_name n; p_exec := p_exec n; p_prof := p_prof n; p_subs := arr; p_num := num; p_parent := p_parent n |};
    OK {| x_heap := h; x_cur := x_cur x; x_top := x_top x; x_num := x_num x |}
  | None => OK {| x_heap := h; x_cur := None; x_top := arr; x_num := num |}
  end.

(** profiling.c:131-138, 145-150; parent is set in 152. *)
Definition new_node (name : cstr) (parent : option addr) : pnode :=
  {| p_name := name; p_exec := 0; p_prof := 0; p_subs := None; p_num := 0; p_parent := parent |}.
(** binary_search.c:358-407 [profiling_stack_binary_search_insert] *)
Definition stack_search (a : list (option pnode)) (start_index end_index : nat) (value : cstr) : res (nat * bool) :=
  bsearch_insert (fun i => do n <- aget a i; do n <- p_init n; OK (strcmp value (p_name n))) start_index end_index.
(** profiling.c:126-130: the loop that moves everything to the right; [n] = i - index. *)
Fixpoint shift (a : list (option pnode)) (index n : nat) : res (list (option pnode)) :=
  match n with
  | O => OK a
  | S n => do v <- aget a (index + n); do a <- aset a (index + S n) v; shift a index n
  end.

(** profiling.c:99-151: the entry with this name, inserted if there is none. *)
Definition enter (x : ctx) (name : cstr) : res (ctx * nat * nat) :=
  do ' (arr, num) <- get_site x;
  match arr with
  | Some b =>
    do a <- block (x_heap x) b;
    do ' (index, found) <- stack_search a 0 (num - 1) name;
    if found then OK (x, b, index) else
    let '(h, b') := p_malloc (x_heap x) (firstn (S num) (a ++ [None])) in
    do h <- p_free h b;
    do a <- block h b';
    do a <- shift a index (num - index);
    do a <- aset a index (Some (new_node name None));
    do h <- put h b' a;
    do x <- set_site x h (Some b') (S num);
    OK (x, b', index)
  | None =>
    let '(h, b') := p_malloc (x_heap x) [Some (new_node name None)] in
    do x <- set_site x h (Some b') 1;
    OK (x, b', 0)
  end.
(** profiling.c:74-160 [_BEGIN_PROFILE_SECTION]; [t0], [t1]: what clock() returns. *)
Definition begin_section (x : ctx) (name : cstr) (t0 t1 : Z) : res (ctx * token) :=
  do same <- match x_cur x with
             | Some c => do n <- node (x_heap x) c; OK (strcmp name (p_name n) =? 0)%Z
             | None => OK false
             end;
  if same then OK (x, {| k_start := t1; k_prof_start := t0; k_should_end := false; k_stack := x_cur x |}) else
  do ' (x, b, index) <- enter x name;
  do n <- node (x_heap x) (b, index);
  do h <- put_node (x_heap x) (b, index) {| p_name := p_name n; p_exec := p_exec n; p_prof := p_prof n; p_subs := p_subs n; p_num := p_num n; p_parent := x_cur x |};
  OK ({| x_heap := h; x_cur := Some (b, index); x_top := x_top x; x_num := x_num x |},
      {| k_start := t1; k_prof_start := t0; k_should_end := true; k_stack := Some (b, index) |}).

Definition add_prof (h : pheap) (p : addr) (d : Z) : res pheap :=
  do n <- node h p;
  put_node h p {| p_name := p_name n; p_exec := p_exec n; p_prof := p_prof n + d; p_subs := p_subs n; p_num := p_num n; p_parent := p_parent n |}.

(** profiling.c:162-199 [_END_PROFILE_SECTION]; [e1], [e2]: what clock() returns. *)
Definition end_section (x : ctx) (k : token) (e1 e2 : Z) : res ctx :=
  let elapsed := (e1 - k_start k)%Z in
  let total := (e2 - k_prof_start k)%Z in
  if k_should_end k then
    match k_stack k with
    | None => UB
    | Some p =>
      do n <- node (x_heap x) p;
      let current := (elapsed - p_prof n)%Z in
      do h <- put_node (x_heap x) p {| p_name := p_name n; p_exec := p_exec n + current; p_prof := 0; p_subs := p_subs n; p_num := p_num n; p_parent := p_parent n |};
      do h <- match p_parent n with
              | Some q => add_prof h q (total - current)
              | None => OK h
              end;
      OK {| x_heap := h; x_cur := p_parent n; x_top := x_top x; x_num := x_num x |}
    end
  else
    match k_stack k with
    | Some p => do h <- add_prof (x_heap x) p (total - elapsed); OK {| x_heap := h; x_cur := x_cur x; x_top := x_top x; x_num := x_num x |}
    | None => OK x
    end.

(** A run of a program: every section begins, runs the sections inside of it and
    ends (profiling.h:87-97: BEGIN_PROFILE_FUNC(), END_PROFILE_FUNC()).  [t0], [t1], [e1], [e2]:
    the readings of the clock. *)
Inductive call : Type := Call (name : cstr) (t0 t1 : Z) (inside : list call) (e1 e2 : Z).
Fixpoint run_call (x : ctx) (c : call) {struct c} : res ctx :=
  match c with
  | Call name t0 t1 inside e1 e2 =>
    do ' (x, k) <- begin_section x name t0 t1;
    do x <- (fix run_calls (x : ctx) (l : list call) : res ctx := match l with [] => OK x | c :: l => do x <- run_call x c; run_calls x l end) x inside;
    end_section x k e1 e2
  end.
Definition run_calls := fix run_calls (x : ctx) (l : list call) : res ctx := match l with [] => OK x | c :: l => do x <- run_call x c; run_calls x l end.

(** profiling.c:34-58 [partition_execution_times] *)
Definition swap (a : list (option pnode)) (i j : nat) : res (list (option pnode)) :=
  do x <- aget a i; do y <- aget a j; do a <- aset a i y; aset a j x.
Definition exec_at (a : list (option pnode)) (i : nat) : res Z := do n <- aget a i; do n <- p_init n; OK (p_exec n).
(** 40-50: [i1] is i + 1, [n] = high - j. *)
Fixpoint part_loop (a : list (option pnode)) (pivot : Z) (i1 j n : nat) : res (list (option pnode) * nat) :=
  match n with
  | O => OK (a, i1)
  | S n =>
    do t <- exec_at a j;
    if (pivot <? t)%Z then do a <- swap a i1 j; part_loop a pivot (S i1) (S j) n
    else part_loop a pivot i1 (S j) n
  end.
Definition partition (a : list (option pnode)) (low high : nat) : res (list (option pnode) * nat) :=
  do pivot <- exec_at a high;
  do ' (a, i1) <- part_loop a pivot low low (high - low);
  do a <- swap a i1 high;
  OK (a, i1).

(** profiling.c:60-72 [quick_sort_execution_times]; indices are signed long. *)
Fixpoint quick_sort (fuel : nat) (h : pheap) (b : nat) (low high : Z) : res pheap :=
  match fuel with
  | O => OOF
  | S fuel =>
    do h <- (if (low <? high)%Z then
               do a <- block h b;
               do ' (a, pi) <- partition a (Z.to_nat low) (Z.to_nat high);
               do h <- put h b a;
               do h <- quick_sort fuel h b low (Z.of_nat pi - 1);
               quick_sort fuel h b (Z.of_nat pi + 1) high
             else OK h);
    do n <- node h (b, 0);
    if p_num n =? 0 then OK h else
    match p_subs n with
    | None => UB
    | Some s => quick_sort fuel h s 0 (Z.of_nat (p_num n) - 1)
    end
  end.

(** profiling.c:283-310 [fprint_profiling_stack]: the first 40 characters of a line.
    name_buffer has 1024 characters. *)
Definition name_column (level : nat) (name : cstr) : res cstr :=
  if 1024 <=? level + length name then UB
  else OK (firstn 40 (repeat 45%Z level ++ name ++ 32%Z :: repeat 46%Z 40)).
Record line : Type := { l_column : cstr; l_time : Z }.
(** 282-333; the time is printed with one decimal, in milliseconds. *)
Fixpoint print_stack (fuel : nat) (h : pheap) (n : pnode) (level : nat) : res (list line) :=
  match fuel with
  | O => OOF
  | S fuel =>
    do c <- name_column level (p_name n);
    do ls <- (fix go (j m : nat) : res (list line) :=
                match m with
                | O => OK []
                | S m =>
                  match p_subs n with
                  | None => UB
                  | Some s => do k <- node h (s, j); do l <- print_stack fuel h k (S level); do ls <- go (S j) m; OK (l ++ ls)
                  end
                end) 0 (p_num n);
    OK ({| l_column := c; l_time := p_exec n |} :: ls)
  end.
(** profiling.c:335-344 [free_profiling_stack] *)
Fixpoint free_stack (fuel : nat) (h : pheap) (n : pnode) : res pheap :=
  match fuel with
  | O => OOF
  | S fuel =>
    do h <- (fix go (h : pheap) (j m : nat) : res pheap :=
               match m with
               | O => OK h
               | S m =>
                 match p_subs n with
                 | None => UB
                 | Some s => do k <- node h (s, j); do h <- free_stack fuel h k; go h (S j) m
                 end
               end) h 0 (p_num n);
    match p_subs n with Some s => p_free h s | None => OK h end
  end.
(** The loops over the outermost sections, 251-257, 266-271. *)
Fixpoint print_all (fuel : nat) (h : pheap) (b j m : nat) : res (list line) :=
  match m with
  | O => OK []
  | S m => do n <- node h (b, j); do l <- print_stack fuel h n 0; do ls <- print_all fuel h b (S j) m; OK (l ++ ls)
  end.
Fixpoint free_all (fuel : nat) (h : pheap) (b j m : nat) : res pheap :=
  match m with
  | O => OK h
  | S m => do n <- node h (b, j); do h <- free_stack fuel h n; free_all fuel h b (S j) m
  end.

(** profiling.c:201-275 [END_PROFILING]; what it writes to the file: [None] if it writes none
    (sections are still running, no file name, nothing measured).  [can_open]: a file name is
    given and the file can be created. *)
Inductive file_name : Type := No_name | Cannot_open | Can_open.
Definition end_profiling (fuel : nat) (x : ctx) (out : file_name) : res (ctx * option (list line)) :=
  match x_cur x with
  | Some _ => OK (x, None)
  | None =>
    let finish h ls :=
      match x_top x with
      | None => OK ({| x_heap := h; x_cur := None; x_top := None; x_num := 0 |}, ls)
      | Some b => do h <- free_all fuel h b 0 (x_num x); do h <- p_free h b; OK ({| x_heap := h; x_cur := None; x_top := None; x_num := 0 |}, ls)
      end in
    if x_num x =? 0 then finish (x_heap x) None else
    match out with
    | No_name => finish (x_heap x) None
    | Cannot_open => OK (x, None)
    | Can_open =>
      match x_top x with
      | None => UB
      | Some b =>
        do h <- quick_sort fuel (x_heap x) b 0 (Z.of_nat (x_num x) - 1);
        do ls <- print_all fuel h b 0 (x_num x);
        finish h (Some ls)
      end
    end
  end.
