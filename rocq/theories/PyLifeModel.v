(** * Model of the lifetimes of Python objects that look into others

    python/pybind11_key.cpp:129-149, conversions.hpp:234-246: none of the
    bindings has a keep_alive, so the objects that __getitem__ returns do not
    keep the object alive whose memory they point into.  Memory is a list of
    blocks: the keywords of a file, or the elements of an array of structures
    (d3plot_solid and the like; an element is a number here). *)
From Verif Require Import CBase KeyTableModel CppKeyModel PyArrayModel.

Inductive block := BKeywords (l : list keyword) | BArray (l : list Z).

(** What a Python object holds: the owner of a block, or a pointer into a
    block. *)
Inductive pobject :=
| PKeywords (b : nat)               (* key.cpp:187-200 dro::Keywords *)
| PSlice (b : nat) (sl : nat * nat) (* key.cpp:171-172 KeywordSlice(ptr, size) *)
| PKeyword (b i : nat)              (* key.cpp:161 Keyword(&ptr[i]) *)
| PCard (b i c : nat)               (* key.cpp:163-169 Card(&cards[c]), which does not own *)
| PArray (b : nat)                  (* Array<T> with a class T *)
| PElement (b i : nat).             (* conversions.hpp:109-115, 240: T& with return_value_policy::reference *)

Record pstate := { ps_heap : list (option block); ps_objs : list (option pobject) }.
Definition pstart : pstate := {| ps_heap := []; ps_objs := [] |}.

Inductive pop :=
| OParse (l : list keyword)         (* key_file_parse(...) *)
| OArray (l : list Z)               (* plot.read_solids_state(...) *)
| OName (j : nat) (name : list Z)   (* keywords[name] *)
| OAt (j i : nat)                   (* slice[i], keyword[i], array[i] *)
| OUse (j : nat)                    (* the text of a card, the value of an element, len of a keyword *)
| ODrop (j : nat).                  (* the last reference to object j goes away *)

Inductive pseen := SObject | SText (t : list Z) | SValue (z : Z) | SLen (n : nat) | SError | SNone.

Definition pobj (s : pstate) (j : nat) : res pobject :=
  do o <- aget (ps_objs s) j; match o with Some o => OK o | None => UB end.
(** Memory that was freed may not be read. *)
Definition pkeywords (s : pstate) (b : nat) : res (list keyword) :=
  do x <- aget (ps_heap s) b; match x with Some (BKeywords l) => OK l | _ => UB end.
Definition parray (s : pstate) (b : nat) : res (list Z) :=
  do x <- aget (ps_heap s) b; match x with Some (BArray l) => OK l | _ => UB end.
Definition padd (s : pstate) (o : pobject) : pstate := {| ps_heap := ps_heap s; ps_objs := ps_objs s ++ [Some o] |}.
Definition pfree (s : pstate) (b : nat) : res pstate :=
  do x <- aget (ps_heap s) b;
  match x with None => UB | Some _ => do h <- aset (ps_heap s) b None; OK {| ps_heap := h; ps_objs := ps_objs s |} end.
Definition pkeyword (s : pstate) (b i : nat) : res keyword := do l <- pkeywords s b; aget l i.

Definition pstep (s : pstate) (o : pop) : res (pstate * pseen) :=
  match o with
  | OParse l => OK ({| ps_heap := ps_heap s ++ [Some (BKeywords l)]; ps_objs := ps_objs s ++ [Some (PKeywords (length (ps_heap s)))] |}, SObject)
  | OArray l => OK ({| ps_heap := ps_heap s ++ [Some (BArray l)]; ps_objs := ps_objs s ++ [Some (PArray (length (ps_heap s)))] |}, SObject)
  | OName j name => do x <- pobj s j;
    match x with
    | PKeywords b => do l <- pkeywords s b; do r <- keywords_at l name;
      OK (match r with Returns sl => (padd s (PSlice b sl), SObject) | Throws => (s, SError) end)
    | _ => OK (s, SError)
    end
  | OAt j i => do x <- pobj s j;
    match x with
    | PSlice b sl => (* the pointer is computed, not read: key.cpp:174-180 *)
      if (snd sl =? 0) || (snd sl - 1 <? i) then OK (s, SError) else OK (padd s (PKeyword b (fst sl + i)), SObject)
    | PKeyword b k => do kw <- pkeyword s b k;
      if (length (kw_cards kw) =? 0) || (length (kw_cards kw) - 1 <? i) then OK (s, SError) else OK (padd s (PCard b k i), SObject)
    | PArray b => do l <- parray s b;
      match array_getitem l i with Gives _ => OK (padd s (PElement b i), SObject) | Raises _ => OK (s, SError) end
    | _ => OK (s, SError)
    end
  | OUse j => do x <- pobj s j;
    match x with
    | PCard b k i => do kw <- pkeyword s b k; do t <- aget (kw_cards kw) i; OK (s, SText t)
    | PKeyword b k => do kw <- pkeyword s b k; OK (s, SLen (length (kw_cards kw)))
    | PElement b i => do l <- parray s b; do z <- aget l i; OK (s, SValue z)
    | _ => OK (s, SNone)
    end
  | ODrop j => do x <- pobj s j;
    do s <- (match x with PKeywords b | PArray b => pfree s b | _ => OK s end);
    do os <- aset (ps_objs s) j None; OK ({| ps_heap := ps_heap s; ps_objs := os |}, SNone)
  end.

Fixpoint prun (s : pstate) (prog : list pop) : res (list pseen) :=
  match prog with
  | [] => OK []
  | o :: t => do ' (s, r) <- pstep s o; do rs <- prun s t; OK (r :: rs)
  end.
