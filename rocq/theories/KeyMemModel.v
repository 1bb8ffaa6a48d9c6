(** * The memory of a keyword table: key_file_parse and key_file_free of src/key.c

    The same code as in KeyTableModel.v, here with every block of memory it
    allocates, reallocates and frees.  Memory is a list of blocks, [None] once
    freed; realloc always moves.  A block is a string, an array of card_t
    (each the pointer to its string) or an array of keyword_t; [None] inside of
    an array is not initialised.  malloc never fails. *)
From Verif Require Import CBase SearchModel KeyTableModel KeyParseModel.

(** key.h:60-70 [keyword_t]: the pointers are block numbers. *)
Record mkeyword : Type := { m_name : nat; m_cards : option nat; m_num : nat }.
Inductive mblock : Type :=
| BStr (s : cstr)
| BCards (cells : list (option nat))
| BTable (cells : list (option mkeyword)).
Definition mheap : Type := list (option mblock).

Definition m_block (h : mheap) (b : nat) : res mblock := do c <- aget h b; match c with Some x => OK x | None => UB end.
Definition m_string (h : mheap) (b : nat) : res cstr := do c <- m_block h b; match c with BStr s => OK s | _ => UB end.
Definition m_card_cells (h : mheap) (b : nat) : res (list (option nat)) := do c <- m_block h b; match c with BCards l => OK l | _ => UB end.
Definition m_table (h : mheap) (b : nat) : res (list (option mkeyword)) := do c <- m_block h b; match c with BTable l => OK l | _ => UB end.
Definition m_init {A} (c : option A) : res A := match c with Some x => OK x | None => UB end.
Definition m_malloc (h : mheap) (b : mblock) : mheap * nat := (h ++ [Some b], length h).
(** free: nothing happens to NULL; a block that is freed must be allocated. *)
Definition m_free (h : mheap) (b : nat) : res mheap := do _ <- m_block h b; aset h b None.
Definition m_free_opt (h : mheap) (b : option nat) : res mheap := match b with Some b => m_free h b | None => OK h end.

(** keywords[i], keywords[i].name *)
Definition m_keyword (h : mheap) (tab : nat) (i : nat) : res mkeyword := do cells <- m_table h tab; do c <- aget cells i; m_init c.
Definition m_name_at (h : mheap) (tab : nat) (i : nat) : res cstr := do k <- m_keyword h tab i; m_string h (m_name k).

(** realloc of the two kinds of arrays to one cell more ([None]: NULL). *)
Definition realloc_table (h : mheap) (tab : option nat) : res (mheap * nat) :=
  match tab with
  | None => OK (m_malloc h (BTable [None]))
  | Some t => do cells <- m_table h t; let '(h, t') := m_malloc h (BTable (cells ++ [None])) in do h <- m_free h t; OK (h, t')
  end.
Definition realloc_cards (h : mheap) (cards : option nat) : res (mheap * nat) :=
  match cards with
  | None => OK (m_malloc h (BCards [None]))
  | Some c => do cells <- m_card_cells h c; let '(h, c') := m_malloc h (BCards (cells ++ [None])) in do h <- m_free h c; OK (h, c')
  end.

(** key.c:81-85 [key_file_parse_data]: keywords, *num_keywords, current_keyword
    (an index into keywords). *)
Record mdata : Type := { md_heap : mheap; md_table : option nat; md_num : nat; md_current : option nat }.

(** key.c:101-103 *)
Fixpoint m_skip_equal (fuel : nat) (h : mheap) (tab : nat) (name : cstr) (index : nat) : res nat :=
  match fuel with
  | O => OOF
  | S f =>
    do x <- m_name_at h tab index;
    if (strcmp x name =? 0)%Z then m_skip_equal f h tab name (index + 1) else OK index
  end.
(** key.c:92-106 *)
Definition m_position (d : mdata) (name : cstr) : res nat :=
  match md_table d with
  | None => OK 0
  | Some t =>
    do ' (index, found) <- bsearch_insert (fun i => do x <- m_name_at (md_heap d) t i; OK (strcmp name x)) 0 (md_num d - 1);
    if (found : bool) then
      let index := index + 1 in
      if negb (index =? md_num d) then m_skip_equal (S (md_num d)) (md_heap d) t name index else OK index
    else OK index
  end.
(** key.c:107-126: a new keyword; its name is a copy (string_clone). *)
Definition m_insert (d : mdata) (name : cstr) : res mdata :=
  do index <- m_position d name;
  let num := md_num d + 1 in
  do ' (h, t) <- realloc_table (md_heap d) (md_table d);
  do cells <- m_table h t;
  do cells <- shift_right (num - 1 - index) cells (num - 1);
  let '(h, s) := m_malloc h (BStr name) in
  do cells <- aset cells index (Some {| m_name := s; m_cards := None; m_num := 0 |});
  do h <- aset h t (Some (BTable cells));
  OK {| md_heap := h; md_table := Some t; md_num := num; md_current := Some index |}.
(** key.c:133-140: a card is added to the current keyword. *)
Definition m_add_card (d : mdata) (index : nat) (card : cstr) : res mdata :=
  match md_table d with
  | None => UB
  | Some t =>
    do k <- m_keyword (md_heap d) t index;
    let num := m_num k + 1 in
    do ' (h, c) <- realloc_cards (md_heap d) (m_cards k);
    let '(h, s) := m_malloc h (BStr card) in
    do cells <- m_card_cells h c;
    do cells <- aset cells (num - 1) (Some s);
    do h <- aset h c (Some (BCards cells));
    do ks <- m_table h t;
    do ks <- aset ks index (Some {| m_name := m_name k; m_cards := Some c; m_num := num |});
    do h <- aset h t (Some (BTable ks));
    OK {| md_heap := h; md_table := Some t; md_num := md_num d; md_current := md_current d |}
  end.
(** key.c:87-141 [key_file_parse_callback]; [card_index]: [None] is ~0. *)
Definition m_callback (d : mdata) (name : cstr) (card : option cstr) (card_index : option nat) : res mdata :=
  let fresh := match md_current d, card_index with
               | None, _ => true
               | _, None => true
               | _, Some i => i =? 0
               end in
  do d <- (if fresh then m_insert d name else OK d);
  match card, md_current d with
  | Some c, Some k => m_add_card d k c
  | _, _ => OK d
  end.
Fixpoint m_run (d : mdata) (evs : list event) : res mdata :=
  match evs with
  | [] => OK d
  | (name, card, i) :: t => do d <- m_callback d name card i; m_run d t
  end.

(** key.c:690-710 [key_file_free]: the cards of a keyword (695-700), a keyword
    (694-702), all of them. *)
Fixpoint free_cards (h : mheap) (cards : option nat) (j n : nat) : res mheap :=
  match n with
  | O => OK h
  | S n =>
    match cards with
    | None => UB
    | Some c => do cells <- m_card_cells h c; do s <- aget cells j; do s <- m_init s; do h <- m_free h s; free_cards h cards (j + 1) n
    end
  end.
Fixpoint free_keywords (h : mheap) (tab : option nat) (i n : nat) : res mheap :=
  match n with
  | O => OK h
  | S n =>
    match tab with
    | None => UB
    | Some t =>
      do k <- m_keyword h t i;
      do h <- m_free h (m_name k);
      do h <- free_cards h (m_cards k) 0 (m_num k);
      do h <- m_free_opt h (m_cards k);
      free_keywords h tab (i + 1) n
    end
  end.
Definition key_file_free (h : mheap) (keywords : option nat) (num_keywords : nat) : res mheap :=
  do h <- free_keywords h keywords 0 num_keywords; m_free_opt h keywords.

(** key.c:143-176 [key_file_parse]: what it returns and *num_keywords.  [l] is
    what the parser reports (KeyParseModel.v). *)
Definition m_key_file_parse (h : mheap) (l : list item) : res (mheap * option nat * nat) :=
  do d <- m_run {| md_heap := h; md_table := None; md_num := 0; md_current := None |} (events_of l);
  if existsb is_error l then do h <- key_file_free (md_heap d) (md_table d) (md_num d); OK (h, None, 0)
  else OK (md_heap d, md_table d, md_num d).
