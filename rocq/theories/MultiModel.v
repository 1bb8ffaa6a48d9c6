(** * Model of /repo/src/multi_file.c and sync.c (thread safe build)

    Threads call [multi_file_access], [multi_file_seek], [multi_file_tell],
    [multi_file_read] and [multi_file_return] on one shared [multi_file_t].
    The model is a labelled transition system: each step performs at most one
    operation on shared memory (lock, unlock, trylock, fopen, realloc, fseek,
    fread ...), and the steps of all threads interleave freely.  fopen may fail
    at any time.

    Simplifications: mutexes are sequentially consistent (pthread mutexes,
    sync.c:91-150; the Windows events of sync.c:31-88 behave the same way);
    moving a locked mutex with realloc (multi_file.c:122-123) keeps its state;
    fseek and fread on a FILE are atomic (stdio locks the FILE); the file
    content does not change; malloc and realloc succeed. *)
From Verif Require Import CBase.

(** Threads and FILE objects are numbers. *)
Notation tid := nat (only parsing).
Notation fid := nat (only parsing).

(** multi_file.h:38-41 [sync_file_t]: the FILE pointer (NULL is [None]) and the
    thread that has locked the mutex. *)
Record handle : Type := { h_file : option nat; h_owner : option nat }.

(** Where a thread is inside of a call. *)
Inductive pc : Type :=
| Idle
| AWait                     (* multi_file.c:80  sync_lock(&f->file_handles_mutex) *)
| AScan (i : nat)           (* multi_file.c:84  while (i < f->num_file_handles) *)
| AReopen (i : nat)         (* multi_file.c:86-88  entry locked, file_handle is NULL *)
| AUnlock (i : nat)         (* multi_file.c:90  fopen failed *)
| AGot (i : nat) (f : nat)  (* multi_file.c:92-97, 102-108, 141-147 *)
| AGrow                     (* multi_file.c:121-123 *)
| AOpen                     (* multi_file.c:127-128 *)
| AFail                     (* multi_file.c:130-136 *)
| ALock (f : nat)           (* multi_file.c:139 *)
| RWait (i : nat)           (* multi_file.c:152 *)
| RUnlock (i : nat)         (* multi_file.c:154 *)
| RDone.                    (* multi_file.c:156 *)

(** fseek's whence. *)
Inductive whence : Type := SeekSet | SeekCur | SeekEnd.

(** What can be observed from outside.  [ECallAccess]/[EAccess]/[EAccessFail]:
    multi_file_access is called/returns a handle/returns NULL.
    [ECallReturn]/[EReturned]: multi_file_return is called/returns. *)
Inductive event : Type :=
| ECallAccess (t : nat)
| EOpen (t f : nat)
| EOpenFail (t : nat)
| EAccess (t i f : nat)
| EAccessFail (t : nat)
| ESeek (t f : nat) (off : Z) (w : whence) (ok : bool)
| ETell (t f : nat) (p : Z)
| ERead (t f : nat) (n : nat) (data : list Z)
| ECallReturn (t i f : nat)
| EReturned (t : nat).

(** The shared memory ([s_lock]: owner of file_handles_mutex, [s_handles]:
    file_handles, [s_next], [s_pos]: FILE objects and their positions) and the
    threads ([s_pc]; [s_held]: the indices that clients own). *)
Record state : Type := {
  s_lock : option nat;
  s_handles : list handle;
  s_pc : nat -> pc;
  s_next : nat;
  s_pos : nat -> Z;
  s_held : list (nat * nat * nat)
}.

(** multi_file.c:36-55 multi_file_open: no handle. *)
Definition init : state :=
  {| s_lock := None; s_handles := []; s_pc := fun _ => Idle; s_next := 0; s_pos := fun _ => 0%Z; s_held := [] |}.

Definition upd {A} (f : nat -> A) (k : nat) (v : A) : nat -> A := fun x => if x =? k then v else f x.
Fixpoint set_nth {A} (l : list A) (i : nat) (v : A) : list A :=
  match l, i with
  | [], _ => []
  | _ :: r, O => v :: r
  | x :: r, S j => x :: set_nth r j v
  end.
Fixpoint remove_held (x : nat * nat * nat) (l : list (nat * nat * nat)) : list (nat * nat * nat) :=
  match l with
  | [] => []
  | y :: r => let '(t, i, f) := x in let '(t', i', f') := y in
              if (t =? t') && (i =? i') && (f =? f') then r else y :: remove_held x r
  end.

Definition set_pc (s : state) (t : nat) (p : pc) : state :=
  {| s_lock := s_lock s; s_handles := s_handles s; s_pc := upd (s_pc s) t p; s_next := s_next s; s_pos := s_pos s; s_held := s_held s |}.
Definition set_lock (s : state) (l : option nat) : state :=
  {| s_lock := l; s_handles := s_handles s; s_pc := s_pc s; s_next := s_next s; s_pos := s_pos s; s_held := s_held s |}.
Definition set_handles (s : state) (hs : list handle) : state :=
  {| s_lock := s_lock s; s_handles := hs; s_pc := s_pc s; s_next := s_next s; s_pos := s_pos s; s_held := s_held s |}.
Definition set_held (s : state) (hs : list (nat * nat * nat)) : state :=
  {| s_lock := s_lock s; s_handles := s_handles s; s_pc := s_pc s; s_next := s_next s; s_pos := s_pos s; s_held := hs |}.
Definition set_pos (s : state) (f : nat) (p : Z) : state :=
  {| s_lock := s_lock s; s_handles := s_handles s; s_pc := s_pc s; s_next := s_next s; s_pos := upd (s_pos s) f p; s_held := s_held s |}.
(** fopen: a new FILE at position 0. *)
Definition new_file (s : state) : state :=
  {| s_lock := s_lock s; s_handles := s_handles s; s_pc := s_pc s; s_next := S (s_next s); s_pos := upd (s_pos s) (s_next s) 0%Z; s_held := s_held s |}.

(** fseek: the new position, or failure if it would be negative. *)
Definition seek_target (size : Z) (pos off : Z) (w : whence) : Z :=
  match w with SeekSet => off | SeekCur => pos + off | SeekEnd => size + off end.
(** fread of [n] bytes at [pos]. *)
Definition bytes_at (content : list Z) (pos : Z) (n : nat) : list Z := firstn n (skipn (Z.to_nat pos) content).

(** One step of one thread.  [content] are the bytes of the file on disk. *)
Inductive step (content : list Z) (s : state) : option event -> state -> Prop :=
(** multi_file.c:78-80 *)
| St_call_access : forall t, s_pc s t = Idle ->
    step content s (Some (ECallAccess t)) (set_pc s t AWait)
| St_access_lock : forall t, s_pc s t = AWait -> s_lock s = None ->
    step content s None (set_pc (set_lock s (Some t)) t (AScan 0))
(** multi_file.c:84, the loop ends *)
| St_scan_end : forall t i, s_pc s t = AScan i -> length (s_handles s) <= i ->
    step content s None (set_pc s t AGrow)
(** multi_file.c:85, 115: the entry is locked *)
| St_scan_busy : forall t i h o, s_pc s t = AScan i -> nth_error (s_handles s) i = Some h -> h_owner h = Some o ->
    step content s None (set_pc s t (AScan (S i)))
(** multi_file.c:85, 100-109: free and open *)
| St_scan_free : forall t i f, s_pc s t = AScan i -> nth_error (s_handles s) i = Some {| h_file := Some f; h_owner := None |} ->
    step content s None (set_pc (set_handles s (set_nth (s_handles s) i {| h_file := Some f; h_owner := Some t |})) t (AGot i f))
(** multi_file.c:85-86: free, but not open *)
| St_scan_null : forall t i, s_pc s t = AScan i -> nth_error (s_handles s) i = Some {| h_file := None; h_owner := None |} ->
    step content s None (set_pc (set_handles s (set_nth (s_handles s) i {| h_file := None; h_owner := Some t |})) t (AReopen i))
(** multi_file.c:88-98 *)
| St_reopen_ok : forall t i, s_pc s t = AReopen i ->
    step content s (Some (EOpen t (s_next s)))
      (set_pc (set_handles (new_file s) (set_nth (s_handles s) i {| h_file := Some (s_next s); h_owner := Some t |})) t (AGot i (s_next s)))
(** multi_file.c:88-90 *)
| St_reopen_fail : forall t i, s_pc s t = AReopen i ->
    step content s (Some (EOpenFail t)) (set_pc s t (AUnlock i))
(** multi_file.c:90, 115 *)
| St_unlock_entry : forall t i, s_pc s t = AUnlock i ->
    step content s None (set_pc (set_handles s (set_nth (s_handles s) i {| h_file := None; h_owner := None |})) t (AScan (S i)))
(** multi_file.c:92-98, 102-109, 141-147 *)
| St_got : forall t i f, s_pc s t = AGot i f ->
    step content s (Some (EAccess t i f)) (set_pc (set_lock (set_held s ((t, i, f) :: s_held s)) None) t Idle)
(** multi_file.c:119-127 *)
| St_grow : forall t, s_pc s t = AGrow ->
    step content s None (set_pc (set_handles s (s_handles s ++ [{| h_file := None; h_owner := None |}])) t AOpen)
(** multi_file.c:128 *)
| St_open_ok : forall t, s_pc s t = AOpen ->
    step content s (Some (EOpen t (s_next s)))
      (set_pc (set_handles (new_file s) (set_nth (s_handles s) (length (s_handles s) - 1) {| h_file := Some (s_next s); h_owner := None |})) t (ALock (s_next s)))
| St_open_fail : forall t, s_pc s t = AOpen ->
    step content s (Some (EOpenFail t)) (set_pc s t AFail)
(** multi_file.c:130-136 *)
| St_access_fail : forall t, s_pc s t = AFail ->
    step content s (Some (EAccessFail t)) (set_pc (set_lock s None) t Idle)
(** multi_file.c:139 (blocks while the new entry is locked) *)
| St_lock_new : forall t f, s_pc s t = ALock f ->
    nth_error (s_handles s) (length (s_handles s) - 1) = Some {| h_file := Some f; h_owner := None |} ->
    step content s None
      (set_pc (set_handles s (set_nth (s_handles s) (length (s_handles s) - 1) {| h_file := Some f; h_owner := Some t |})) t (AGot (length (s_handles s) - 1) f))
(** multi_file.c:160-170 *)
| St_seek : forall t i f off w, s_pc s t = Idle -> In (t, i, f) (s_held s) ->
    (0 <= seek_target (Z.of_nat (length content)) (s_pos s f) off w)%Z ->
    step content s (Some (ESeek t f off w true)) (set_pos s f (seek_target (Z.of_nat (length content)) (s_pos s f) off w))
| St_seek_fail : forall t i f off w, s_pc s t = Idle -> In (t, i, f) (s_held s) ->
    (seek_target (Z.of_nat (length content)) (s_pos s f) off w < 0)%Z ->
    step content s (Some (ESeek t f off w false)) s
(** multi_file.c:172-179 *)
| St_tell : forall t i f, s_pc s t = Idle -> In (t, i, f) (s_held s) ->
    step content s (Some (ETell t f (s_pos s f))) s
(** multi_file.c:181-189; a short read ends at the end of the file *)
| St_read : forall t i f n, s_pc s t = Idle -> In (t, i, f) (s_held s) ->
    step content s (Some (ERead t f n (bytes_at content (s_pos s f) n)))
      (set_pos s f (s_pos s f + Z.of_nat (length (bytes_at content (s_pos s f) n))))
(** multi_file.c:150-152: only the owner gives back a handle *)
| St_call_return : forall t i f, s_pc s t = Idle -> In (t, i, f) (s_held s) ->
    step content s (Some (ECallReturn t i f)) (set_pc (set_held s (remove_held (t, i, f) (s_held s))) t (RWait i))
| St_return_lock : forall t i, s_pc s t = RWait i -> s_lock s = None ->
    step content s None (set_pc (set_lock s (Some t)) t (RUnlock i))
(** multi_file.c:154 *)
| St_return_unlock : forall t i h, s_pc s t = RUnlock i -> nth_error (s_handles s) i = Some h ->
    step content s None (set_pc (set_handles s (set_nth (s_handles s) i {| h_file := h_file h; h_owner := None |})) t RDone)
(** multi_file.c:156 *)
| St_return_done : forall t, s_pc s t = RDone ->
    step content s (Some (EReturned t)) (set_pc (set_lock s None) t Idle).

Definition emit (o : option event) : list event := match o with Some e => [e] | None => [] end.

(** Executions: all schedules of all threads; the trace is in order. *)
Inductive exec (content : list Z) : list event -> state -> Prop :=
| Ex_init : exec content [] init
| Ex_step : forall tr s o s', exec content tr s -> step content s o s' -> exec content (tr ++ emit o) s'.

(** multi_file.c:57-76 multi_file_close: the FILE objects that are closed, in order. *)
Fixpoint close_files (hs : list handle) : list nat :=
  match hs with
  | [] => []
  | h :: r => match h_file h with Some f => f :: close_files r | None => close_files r end
  end.
