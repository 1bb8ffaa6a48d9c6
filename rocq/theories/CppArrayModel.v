(** * Model of src/cpp/array.hpp: dro::Array, dro::String, dro::SizedString

    Memory is a list of blocks, a block is [Some contents] while allocated and
    [None] once freed; a pointer is a block number with an offset in elements.
    Elements are numbers ([JUNK]: uninitialised).  [malloc] never fails and
    always makes a new block.  [memcpy] of 0 elements touches nothing.
    Objects are numbered in the order of their construction; an object is
    [None] once it is destroyed.  *)
From Verif Require Import CBase.

Notation heap := (list (option (list Z))) (only parsing).
Notation ptr := (nat * nat)%type (only parsing).

(** array.hpp:157-160: the members of Array<T>. *)
Record arr := { a_data : option ptr; a_size : nat; a_del : bool }.

Definition h_malloc (h : heap) (contents : list Z) : heap * ptr := (h ++ [Some contents], (length h, 0)).

(** [free]: only the start of a live block may be freed. *)
Definition h_free (h : heap) (p : ptr) : res heap :=
  do b <- aget h (fst p);
  match b with
  | Some _ => if snd p =? 0 then aset h (fst p) None else UB
  | None => UB
  end.

Definition h_read (h : heap) (p : option ptr) (k : nat) : res Z :=
  match p with
  | None => UB
  | Some (b, o) => do c <- aget h b; match c with Some c => aget c (o + k) | None => UB end
  end.

Definition h_write (h : heap) (p : option ptr) (k : nat) (v : Z) : res heap :=
  match p with
  | None => UB
  | Some (b, o) => do c <- aget h b;
    match c with Some c => do c <- aset c (o + k) v; aset h b (Some c) | None => UB end
  end.

(** [n] elements read through a pointer, as [memcpy] does. *)
Definition h_slice (h : heap) (p : option ptr) (n : nat) : res (list Z) :=
  if n =? 0 then OK []
  else match p with
       | None => UB
       | Some (b, o) => do c <- aget h b;
         match c with
         | Some c => if o + n <=? length c then OK (firstn n (skipn o c)) else UB
         | None => UB
         end
       end.

(** array.hpp:311-312 [Array()] *)
Definition arr_default : arr := {| a_data := None; a_size := 0; a_del := true |}.

(** array.hpp:326-331 [~Array()] *)
Definition arr_destroy (h : heap) (a : arr) : res heap :=
  match a_data a with
  | Some p => if a_del a then h_free h p else OK h
  | None => OK h
  end.

(** array.hpp:369-377 [operator=(Array&&)] for two different objects: the new
    target and the new source.  (318-320: the move constructor calls it on
    the object under construction.) *)
Definition arr_move (rhs : arr) : arr * arr :=
  (rhs, {| a_data := None; a_size := 0; a_del := false |}).

(** The same with [this == &rhs]: the last three assignments win. *)
Definition arr_move_self (a : arr) : arr := {| a_data := None; a_size := 0; a_del := false |}.

(** array.hpp:379-386 [operator=(const Array&)] for two different objects
    (322-324: the copy constructor calls it). *)
Definition arr_copy (h : heap) (rhs : arr) : res (heap * arr) :=
  do c <- h_slice h (a_data rhs) (a_size rhs);
  let '(h, p) := h_malloc h c in
  OK (h, {| a_data := Some p; a_size := a_size rhs; a_del := true |}).

(** The same with [this == &rhs]: [m_data] is replaced by the fresh
    uninitialised block before it is copied onto itself. *)
Definition arr_copy_self (h : heap) (a : arr) : heap * arr :=
  let '(h, p) := h_malloc h (malloc (a_size a)) in
  (h, {| a_data := Some p; a_size := a_size a; a_del := true |}).

(** What a caller sees of an operation. *)
Inductive seen := Nothing | Value (v : Z) | Thrown | Size (n : nat) | Truth (b : bool).

(** array.hpp:333-347 [operator[]], read.  The exception is a
    std::runtime_error. [m_size - 1] is computed on a non-zero size. *)
Definition arr_get (h : heap) (a : arr) (k : nat) : res seen :=
  if (a_size a =? 0) || (a_size a - 1 <? k) then OK Thrown
  else do v <- h_read h (a_data a) k; OK (Value v).

(** [a[k] = v] through the reference operator[] returns. *)
Definition arr_set (h : heap) (a : arr) (k : nat) (v : Z) : res (heap * seen) :=
  if (a_size a =? 0) || (a_size a - 1 <? k) then OK (h, Thrown)
  else do h <- h_write h (a_data a) k v; OK (h, Nothing).

(** array.hpp:410-423 [operator==(const Array&)] *)
Fixpoint arr_equal_from (n : nat) (h : heap) (a b : arr) (i : nat) : res bool :=
  match n with
  | O => OK true
  | S n => do x <- h_read h (a_data a) i; do y <- h_read h (a_data b) i;
    if (x =? y)%Z then arr_equal_from n h a b (i + 1) else OK false
  end.
Definition arr_equal (h : heap) (a b : arr) : res bool :=
  if negb (a_size a =? a_size b) then OK false else arr_equal_from (a_size a) h a b 0.

(** A program: a sequence of operations on arrays. *)
Inductive op :=
| New (n : nat)                       (* Array::New(n), array.hpp:301-309 *)
| Adopt (c : list Z)                  (* Array(data, size), data returned by a C function; 314-316 *)
| Default                             (* Array() *)
| MoveNew (j : nat)                   (* Array(std::move(j)) *)
| CopyNew (j : nat)                   (* Array(j) *)
| MoveTo (i j : nat)                  (* i = std::move(j) *)
| CopyTo (i j : nat)                  (* i = j *)
| View (j off n : nat)                (* Array(&j.data()[off], n, false) *)
| Get (j k : nat)                     (* j[k] *)
| Set_ (j k : nat) (v : Z)            (* j[k] = v *)
| SizeOf (j : nat)                    (* j.size() *)
| Equal (i j : nat)                   (* i == j *)
| Destroy (j : nat).                  (* j's lifetime ends *)

Record mach := { m_heap : heap; m_objs : list (option arr) }.
Definition mach0 : mach := {| m_heap := []; m_objs := [] |}.

(** Use of an object outside its lifetime is undefined. *)
Definition obj (s : mach) (j : nat) : res arr :=
  do o <- aget (m_objs s) j; match o with Some a => OK a | None => UB end.

Definition add_obj (s : mach) (h : heap) (a : arr) : mach := {| m_heap := h; m_objs := m_objs s ++ [Some a] |}.
Definition set_obj (s : mach) (j : nat) (a : option arr) : res mach :=
  do os <- aset (m_objs s) j a; OK {| m_heap := m_heap s; m_objs := os |}.

Definition step (s : mach) (o : op) : res (mach * seen) :=
  match o with
  | New n => let '(h, p) := h_malloc (m_heap s) (malloc n) in
    OK (add_obj s h {| a_data := Some p; a_size := n; a_del := true |}, Nothing)
  | Adopt c => let '(h, p) := h_malloc (m_heap s) c in
    OK (add_obj s h {| a_data := Some p; a_size := length c; a_del := true |}, Nothing)
  | Default => OK (add_obj s (m_heap s) arr_default, Nothing)
  | MoveNew j => do r <- obj s j;
    let '(a, r') := arr_move r in do s <- set_obj s j (Some r'); OK (add_obj s (m_heap s) a, Nothing)
  | CopyNew j => do r <- obj s j;
    do ' (h, a) <- arr_copy (m_heap s) r; OK (add_obj s h a, Nothing)
  | MoveTo i j => do r <- obj s j; do _ <- obj s i;
    if i =? j then do s <- set_obj s i (Some (arr_move_self r)); OK (s, Nothing)
    else let '(a, r') := arr_move r in
      do s <- set_obj s i (Some a); do s <- set_obj s j (Some r'); OK (s, Nothing)
  | CopyTo i j => do r <- obj s j; do _ <- obj s i;
    if i =? j then let '(h, a) := arr_copy_self (m_heap s) r in
      do s <- set_obj {| m_heap := h; m_objs := m_objs s |} i (Some a); OK (s, Nothing)
    else do ' (h, a) <- arr_copy (m_heap s) r;
      do s <- set_obj {| m_heap := h; m_objs := m_objs s |} i (Some a); OK (s, Nothing)
  | View j off n => do r <- obj s j;
    OK (add_obj s (m_heap s) {| a_data := option_map (fun p => (fst p, snd p + off)) (a_data r);
                                a_size := n; a_del := false |}, Nothing)
  | Get j k => do a <- obj s j; do r <- arr_get (m_heap s) a k; OK (s, r)
  | Set_ j k v => do a <- obj s j; do ' (h, r) <- arr_set (m_heap s) a k v;
    OK ({| m_heap := h; m_objs := m_objs s |}, r)
  | SizeOf j => do a <- obj s j; OK (s, Size (a_size a))
  | Equal i j => do a <- obj s i; do b <- obj s j; do r <- arr_equal (m_heap s) a b; OK (s, Truth r)
  | Destroy j => do a <- obj s j; do h <- arr_destroy (m_heap s) a;
    do s <- set_obj {| m_heap := h; m_objs := m_objs s |} j None; OK (s, Nothing)
  end.

Fixpoint run (s : mach) (prog : list op) : res (mach * list seen) :=
  match prog with
  | [] => OK (s, [])
  | o :: t => do ' (s, r) <- step s o; do ' (s, rs) <- run s t; OK (s, r :: rs)
  end.

(** ** Vectors of time steps *)

(** binout.cpp:168-188 [Binout_read_timed], d3plot.cpp:168-182 and the five
    other read_all_* wrappers: [num_timesteps] default constructed arrays,
    array [t] is assigned a temporary [Array(&data[t * num_values],
    num_values, t == 0)] (a move, and the temporary dies empty).  [data] is
    the block the C function returned. *)
Fixpoint timed_from (p : ptr) (num_values : nat) (n t : nat) : list (option arr) :=
  match n with
  | O => []
  | S n => Some (fst (arr_move {| a_data := Some (fst p, snd p + t * num_values);
                                  a_size := num_values; a_del := t =? 0 |}))
           :: timed_from p num_values n (t + 1)
  end.
Definition timed_vector (contents : list Z) (num_values num_timesteps : nat) : mach :=
  let '(h, p) := h_malloc [] contents in
  {| m_heap := h; m_objs := timed_from p num_values num_timesteps 0 |}.

(** ** Strings *)

(** array.hpp:178-197 [String::operator==] against a C string or another
    String (the two bodies are the same). *)
Fixpoint string_eq_from (fuel : nat) (a b : cstr) (i : nat) : res bool :=
  match fuel with
  | O => OOF
  | S f =>
    do x <- cget a i;
    do y <- (if negb (x =? NUL)%Z then cget b i else OK 0%Z);
    if negb (x =? NUL)%Z && negb (y =? NUL)%Z then
      if negb (x =? y)%Z then OK false else string_eq_from f a b (i + 1)
    else if (x =? NUL)%Z then do y <- cget b i; OK (y =? NUL)%Z else OK false
  end.
Definition string_eq (a b : cstr) : res bool := string_eq_from (S (length a)) a b 0.

(** array.hpp:219-232 [SizedString::operator==(const char ptr)]; [a] is the
    buffer, [n] is [m_size]. *)
Fixpoint sized_eq_from (fuel : nat) (a : list Z) (n : nat) (b : cstr) (i : nat) : res bool :=
  match fuel with
  | O => OOF
  | S f =>
    do go <- (if i <? n then do y <- cget b i; OK (negb (y =? NUL)%Z) else OK false);
    if (go : bool) then
      do x <- aget a i; do y <- cget b i;
      if negb (x =? y)%Z then OK false else sized_eq_from f a n b (i + 1)
    else if i =? n then do y <- cget b i; OK (y =? NUL)%Z else OK false
  end.
Definition sized_eq (a : list Z) (n : nat) (b : cstr) : res bool :=
  if n =? 0 then do y <- cget b 0; OK (y =? NUL)%Z else sized_eq_from (S n) a n b 0.

(** std::string::c_str(): the characters of a std::string up to the first
    NUL, as strlen and the loops above see them. *)
Fixpoint c_str (s : list Z) : cstr :=
  match s with
  | [] => []
  | c :: t => if (c =? NUL)%Z then [] else c :: c_str t
  end.

(** array.hpp:199-201 and 248-250: the comparisons with a std::string. *)
Definition string_eq_std (a : cstr) (b : list Z) : res bool := string_eq a (c_str b).
Definition sized_eq_std (a : list Z) (n : nat) (b : list Z) : res bool := sized_eq a n (c_str b).

(** array.hpp:234-246 [SizedString::operator==(const SizedString&)] *)
Fixpoint sized_sized_from (k : nat) (a b : list Z) (i : nat) : res bool :=
  match k with
  | O => OK true
  | S k => do x <- aget a i; do y <- aget b i;
    if negb (x =? y)%Z then OK false else sized_sized_from k a b (i + 1)
  end.
Definition sized_eq_sized (a : list Z) (n : nat) (b : list Z) (m : nat) : res bool :=
  if negb (n =? m) then OK false else sized_sized_from n a b 0.

(** A [char] converted to size_t, as in [i < str1.data()[i]]. *)
Definition char_to_size (c : Z) : Z := u64 (schar c).

(** array.hpp:253-262 [operator==(const String&, const SizedString&)].  The
    condition [i < str1.data()[i] != '\0'] is [(i < str1.data()[i]) != 0].
    [str1[i]] throws behind the end of str1, and the function is noexcept. *)
Fixpoint mixed_eq_from (fuel : nat) (a : cstr) (b : list Z) (m : nat) (i : nat) : res bool :=
  match fuel with
  | O => OOF
  | S f =>
    do x <- cget a i;
    if (Z.of_nat i <? char_to_size x)%Z && (i <? m) then
      if (x =? NUL)%Z then UB
      else do y <- aget b i;
        if negb (x =? y)%Z then OK false else mixed_eq_from f a b m (i + 1)
    else if i =? m then do x <- cget a i; OK (x =? NUL)%Z else OK false
  end.
Definition mixed_eq (a : cstr) (b : list Z) (m : nat) : res bool := mixed_eq_from (S m) a b m 0.

(** array.hpp:349-367 [String::operator[]] *)
Fixpoint string_at_from (fuel : nat) (a : cstr) (index i : nat) : res seen :=
  match fuel with
  | O => OOF
  | S f => do x <- cget a i;
    if negb (x =? NUL)%Z then
      if i =? index then OK (Value x) else string_at_from f a index (i + 1)
    else OK Thrown
  end.
Definition string_at (a : cstr) (index : nat) : res seen := string_at_from (S (length a)) a index 0.

(** array.hpp:152-155 with 167-168: begin() and end() of a String are those of
    Array<char> with [m_size = ~0], so a range-for dereferences the indices
    0, 1, 2, ... up to 2^64 - 2; the characters it reaches: *)
Fixpoint string_range_from (n : nat) (a : cstr) (i : nat) : res (list Z) :=
  match n with
  | O => OK []
  | S n => do x <- cget a i; do t <- string_range_from n a (i + 1); OK (x :: t)
  end.
Definition string_range (a : cstr) (n : nat) : res (list Z) := string_range_from n a 0.
