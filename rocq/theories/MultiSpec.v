(** * What users rely on, stated on the sequence of calls and returns *)
From Verif Require Import CBase MultiModel.

(** The handles that belong to a client: accessed and not given back.
    (thread, FILE) pairs. *)
Fixpoint drop (x : nat * nat) (l : list (nat * nat)) : list (nat * nat) :=
  match l with
  | [] => []
  | y :: r => if (fst x =? fst y) && (snd x =? snd y) then r else y :: drop x r
  end.
Definition owned_step (l : list (nat * nat)) (e : event) : list (nat * nat) :=
  match e with
  | EAccess t _ f => (t, f) :: l
  | ECallReturn t _ f => drop (t, f) l
  | _ => l
  end.
Definition owned (tr : list event) : list (nat * nat) := fold_left owned_step tr [].

(** The position thread [t] expects FILE [f] to have, computed from its own
    calls only; [None] before it has sought to a known position. *)
Definition view_step (size : Z) (t f : nat) (v : option Z) (e : event) : option Z :=
  match e with
  | EAccess t' _ f' => if (t' =? t) && (f' =? f) then None else v
  | ECallReturn t' _ f' => if (t' =? t) && (f' =? f) then None else v
  | ESeek t' f' off w true =>
      if (t' =? t) && (f' =? f)
      then match w with
           | SeekSet => Some off
           | SeekEnd => Some (size + off)%Z
           | SeekCur => match v with Some p => Some (p + off)%Z | None => None end
           end
      else v
  | ERead t' f' _ data =>
      if (t' =? t) && (f' =? f)
      then match v with Some p => Some (p + Z.of_nat (length data))%Z | None => None end
      else v
  | _ => v
  end.
Definition view (size : Z) (t f : nat) (tr : list event) : option Z := fold_left (view_step size t f) tr None.

(** The bytes [p, p+n) of the file, cut off at its end. *)
Definition slice_of (content : list Z) (p : Z) (n : nat) (data : list Z) : Prop :=
  (forall k, k < length data -> nth_error data k = nth_error content (Z.to_nat p + k)) /\
  length data = Nat.min n (length content - Z.to_nat p).

(** How many handles are taken: accesses that have succeeded minus returns
    that are complete. *)
Fixpoint count (p : event -> bool) (tr : list event) : nat :=
  match tr with [] => 0 | e :: r => (if p e then 1 else 0) + count p r end.
Definition is_access (e : event) : bool := match e with EAccess _ _ _ => true | _ => false end.
Definition is_returned (e : event) : bool := match e with EReturned _ => true | _ => false end.
Definition is_open_fail (e : event) : bool := match e with EOpenFail _ => true | _ => false end.
Definition is_open (e : event) : bool := match e with EOpen _ _ => true | _ => false end.
Definition in_use (tr : list event) : nat := count is_access tr - count is_returned tr.
(** [n] bounds the number of handles in use at every moment. *)
Definition concurrency_at_most (n : nat) (tr : list event) : Prop := forall k, in_use (firstn k tr) <= n.
(** fopen failures. *)
Definition open_failures (tr : list event) : nat := count is_open_fail tr.

(** The FILE objects that were opened. *)
Fixpoint opened (tr : list event) : list nat :=
  match tr with [] => [] | EOpen _ f :: r => f :: opened r | _ :: r => opened r end.

(** A call is in progress. *)
Definition busy (s : state) (t : nat) : Prop := s_pc s t <> Idle.
