(** * Specification: the memory of a keyword table *)
From Verif Require Import CBase KeyTableModel KeyMemModel.

(** Memory that is still allocated. *)
Definition allocated (h : mheap) (b : nat) : Prop := exists x, nth_error h b = Some (Some x).

(** What a caller sees who follows the pointers of a table of [n] keywords. *)
Definition shows_string (h : mheap) (b : nat) (s : cstr) : Prop := nth_error h b = Some (Some (BStr s)).
Definition shows_keyword (h : mheap) (k : mkeyword) (kw : keyword) : Prop :=
  shows_string h (m_name k) (kw_name kw) /\ m_num k = length (kw_cards kw) /\
  match m_cards k with
  | None => kw_cards kw = []
  | Some c => exists strings, nth_error h c = Some (Some (BCards (map Some strings))) /\ Forall2 (shows_string h) strings (kw_cards kw)
  end.
Definition shows (h : mheap) (tab : option nat) (n : nat) (ks : list keyword) : Prop :=
  n = length ks /\
  match tab with
  | None => ks = []
  | Some t => exists cells, nth_error h t = Some (Some (BTable (map Some cells))) /\ Forall2 (shows_keyword h) cells ks
  end.

(** The blocks of memory a table consists of. *)
Definition somes {A} (l : list (option A)) : list A := flat_map (fun o => match o with Some x => [x] | None => [] end) l.
Definition keyword_blocks (h : mheap) (k : mkeyword) : list nat :=
  m_name k ::
  match m_cards k with
  | None => []
  | Some c => c :: match nth_error h c with Some (Some (BCards l)) => somes l | _ => [] end
  end.
Definition table_blocks (h : mheap) (tab : option nat) : list nat :=
  match tab with
  | None => []
  | Some t => t :: match nth_error h t with Some (Some (BTable l)) => flat_map (keyword_blocks h) (somes l) | _ => [] end
  end.

(** [h'] is [h] with the blocks [l] freed. *)
Definition freed (h : mheap) (l : list nat) (h' : mheap) : Prop :=
  length h' = length h /\ (forall b, In b l -> nth_error h' b = Some None) /\ (forall b, ~ In b l -> nth_error h' b = nth_error h b).
(** [h'] has the blocks of [h], and others. *)
Definition keeps (h h' : mheap) : Prop := length h <= length h' /\ forall b, b < length h -> nth_error h' b = nth_error h b.
