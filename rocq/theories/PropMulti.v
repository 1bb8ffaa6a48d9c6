(** * Properties C33, C34, C49, C50 *)
From Verif Require Import CBase CBaseFacts MultiModel MultiSpec MultiProofs.

(** C33: in every execution of any number of threads no two handles that are
    accessed at the same time are the same FILE. *)
Theorem C33_exclusive : forall content tr s, exec content tr s -> NoDup (map snd (owned tr)).
Proof.
  intros content tr s E. destruct (exec_inv _ _ _ E) as (ret & J & _ & T). rewrite (V_owned _ _ _ T). eapply owned_nodup; eauto.
Qed.

(** C33: whatever the other threads do, a read delivers the bytes at the
    position that follows from the reader's own calls. *)
Theorem C33_isolated_read : forall content tr s, exec content tr s -> forall tr1 tr2 t f n data, tr = tr1 ++ ERead t f n data :: tr2 ->
  forall p, view (Z.of_nat (length content)) t f tr1 = Some p -> slice_of content p n data.
Proof.
  intros content tr s E tr1 tr2 t f n data Q p V. destruct (exec_split _ _ _ E _ _ _ Q) as (s1 & s2 & E1 & St).
  destruct (exec_inv _ _ _ E1) as (ret & J & _ & T). destruct (V_view _ _ _ T _ _ _ V) as (_ & <-). inversion St; subst. apply bytes_slice.
Qed.
Theorem C33_isolated_tell : forall content tr s, exec content tr s -> forall tr1 tr2 t f q, tr = tr1 ++ ETell t f q :: tr2 ->
  forall p, view (Z.of_nat (length content)) t f tr1 = Some p -> q = p.
Proof.
  intros content tr s E tr1 tr2 t f q Q p V. destruct (exec_split _ _ _ E _ _ _ Q) as (s1 & s2 & E1 & St).
  destruct (exec_inv _ _ _ E1) as (ret & J & _ & T). destruct (V_view _ _ _ T _ _ _ V) as (_ & <-). inversion St; subst. reflexivity.
Qed.

(** C34: if at no moment more than [n] handles are in use, then at most [n]
    handles, and one for every failed fopen, exist whenever no call is inside
    the critical section. *)
Theorem C34_bound : forall content tr s n, exec content tr s -> concurrency_at_most n tr ->
  (s_lock s = None -> length (s_handles s) <= n + open_failures tr) /\ length (s_handles s) <= S n + open_failures tr.
Proof.
  intros content tr s n E C. destruct (exec_inv _ _ _ E) as (ret & J & K & _).
  assert (U : in_use tr <= n). { destruct (concurrency_app n tr []) as (_ & A); rewrite ?app_nil_r in *; auto. }
  destruct (T_bound _ _ _ K n C) as [B|((t & B1 & _) & B2)]; split; intros; try congruence; lia.
Qed.
(** C34: as long as no fopen has failed, a file is opened only when all handles
    that were opened before are in use. *)
Theorem C34_reuse : forall content tr s, exec content tr s -> forall tr1 tr2 t f, tr = tr1 ++ EOpen t f :: tr2 ->
  open_failures tr1 = 0 -> in_use tr1 = count is_open tr1.
Proof.
  intros content tr s E tr1 tr2 t f Q Z. destruct (exec_split _ _ _ E _ _ _ Q) as (s1 & s2 & E1 & St). eapply reuse; eauto.
Qed.

(** C50: closing closes every FILE that was ever opened, each exactly once. *)
Theorem C50_close : forall content tr s, exec content tr s ->
  NoDup (close_files (s_handles s)) /\ forall f, In f (close_files (s_handles s)) <-> In f (opened tr).
Proof. exact close_spec. Qed.

(** C49: no execution deadlocks.  If no thread is in the critical section every
    thread that is inside of a call completes it when it runs; otherwise the
    thread in the critical section does, whatever fopen returns. *)
Theorem C49_no_deadlock : forall content tr s, exec content tr s ->
  (s_lock s = None -> forall t, completes content t s) /\
  (forall t, s_lock s = Some t -> busy s t /\ completes content t s).
Proof.
  intros content tr s E. destruct (exec_inv _ _ _ E) as (ret & J & _). split.
  - intros L t. eapply completes_of; eauto.
  - intros t L. split; [|eapply completes_of; eauto]. apply (I_lock _ _ J) in L. unfold busy. destruct (s_pc s t); discriminate.
Qed.

(** ** Executions exist: an executable scheduler *)
Inductive act : Type :=
| CallAccess (t : nat) | CallReturn (t i f : nat) | Seek (t i f : nat) (off : Z) (w : whence) | Tell (t i f : nat) | Read (t i f n : nat)
| Go (t : nat) (fopen_ok : bool).
Definition idle (s : state) (t : nat) : bool := match s_pc s t with Idle => true | _ => false end.
Definition has (s : state) (x : nat * nat * nat) : bool :=
  existsb (fun y => (fst (fst x) =? fst (fst y)) && (snd (fst x) =? snd (fst y)) && (snd x =? snd y)) (s_held s).
Definition go (content : list Z) (s : state) (a : act) : option (option event * state) :=
  let len := Z.of_nat (length content) in
  match a with
  | CallAccess t => if idle s t then Some (Some (ECallAccess t), set_pc s t AWait) else None
  | CallReturn t i f => if idle s t && has s (t, i, f) then Some (Some (ECallReturn t i f), set_pc (set_held s (remove_held (t, i, f) (s_held s))) t (RWait i)) else None
  | Seek t i f off w => if idle s t && has s (t, i, f)
      then let p := seek_target len (s_pos s f) off w in
           if (0 <=? p)%Z then Some (Some (ESeek t f off w true), set_pos s f p) else Some (Some (ESeek t f off w false), s)
      else None
  | Tell t i f => if idle s t && has s (t, i, f) then Some (Some (ETell t f (s_pos s f)), s) else None
  | Read t i f n => if idle s t && has s (t, i, f)
      then let d := bytes_at content (s_pos s f) n in Some (Some (ERead t f n d), set_pos s f (s_pos s f + Z.of_nat (length d))) else None
  | Go t ok =>
    let hs := s_handles s in
    match s_pc s t with
    | Idle => None
    | AWait => match s_lock s with None => Some (None, set_pc (set_lock s (Some t)) t (AScan 0)) | _ => None end
    | AScan i =>
        match nth_error hs i with
        | None => Some (None, set_pc s t AGrow)
        | Some h => match h_owner h, h_file h with
                    | Some _, _ => Some (None, set_pc s t (AScan (S i)))
                    | None, Some f => Some (None, set_pc (set_handles s (set_nth hs i {| h_file := Some f; h_owner := Some t |})) t (AGot i f))
                    | None, None => Some (None, set_pc (set_handles s (set_nth hs i {| h_file := None; h_owner := Some t |})) t (AReopen i))
                    end
        end
    | AReopen i => if ok
        then Some (Some (EOpen t (s_next s)), set_pc (set_handles (new_file s) (set_nth hs i {| h_file := Some (s_next s); h_owner := Some t |})) t (AGot i (s_next s)))
        else Some (Some (EOpenFail t), set_pc s t (AUnlock i))
    | AUnlock i => Some (None, set_pc (set_handles s (set_nth hs i {| h_file := None; h_owner := None |})) t (AScan (S i)))
    | AGot i f => Some (Some (EAccess t i f), set_pc (set_lock (set_held s ((t, i, f) :: s_held s)) None) t Idle)
    | AGrow => Some (None, set_pc (set_handles s (hs ++ [{| h_file := None; h_owner := None |}])) t AOpen)
    | AOpen => if ok
        then Some (Some (EOpen t (s_next s)), set_pc (set_handles (new_file s) (set_nth hs (length hs - 1) {| h_file := Some (s_next s); h_owner := None |})) t (ALock (s_next s)))
        else Some (Some (EOpenFail t), set_pc s t AFail)
    | AFail => Some (Some (EAccessFail t), set_pc (set_lock s None) t Idle)
    | ALock f => match nth_error hs (length hs - 1) with
        | Some {| h_file := Some g; h_owner := None |} => if f =? g
            then Some (None, set_pc (set_handles s (set_nth hs (length hs - 1) {| h_file := Some f; h_owner := Some t |})) t (AGot (length hs - 1) f)) else None
        | _ => None
        end
    | RWait i => match s_lock s with None => Some (None, set_pc (set_lock s (Some t)) t (RUnlock i)) | _ => None end
    | RUnlock i => match nth_error hs i with
        | Some h => Some (None, set_pc (set_handles s (set_nth hs i {| h_file := h_file h; h_owner := None |})) t RDone) | None => None end
    | RDone => Some (Some (EReturned t), set_pc (set_lock s None) t Idle)
    end
  end.
Lemma idle_true s t : idle s t = true -> s_pc s t = Idle.
Proof. unfold idle. destruct (s_pc s t); congruence. Qed.
Lemma has_true s t i f : has s (t, i, f) = true -> In (t, i, f) (s_held s).
Proof.
  intros H. apply existsb_exists in H as ([[t' i'] f'] & A & B). cbn in B. apply andb_true_iff in B as (B & B3). apply andb_true_iff in B as (B1 & B2).
  apply Nat.eqb_eq in B1, B2, B3. subst. exact A.
Qed.
Lemma go_sound content s a o s' : go content s a = Some (o, s') -> step content s o s'.
Proof.
  destruct a as [t|t i f|t i f off w|t i f|t i f n|t ok]; cbn [go].
  - destruct (idle s t) eqn:A; [|discriminate]. intros Q. injection Q as <- <-. constructor. apply idle_true. exact A.
  - destruct (idle s t && has s (t, i, f)) eqn:A; [|discriminate]. apply andb_true_iff in A as (A & B). intros Q. injection Q as <- <-. constructor; [apply idle_true|apply has_true]; auto.
  - destruct (idle s t && has s (t, i, f)) eqn:A; [|discriminate]. apply andb_true_iff in A as (A & B). apply idle_true in A. apply has_true in B.
    destruct (Z.leb_spec 0 (seek_target (Z.of_nat (length content)) (s_pos s f) off w)); intros Q; injection Q as <- <-; econstructor; eauto.
  - destruct (idle s t && has s (t, i, f)) eqn:A; [|discriminate]. apply andb_true_iff in A as (A & B). apply idle_true in A. apply has_true in B. intros Q. injection Q as <- <-. econstructor; eauto.
  - destruct (idle s t && has s (t, i, f)) eqn:A; [|discriminate]. apply andb_true_iff in A as (A & B). apply idle_true in A. apply has_true in B. intros Q. injection Q as <- <-. econstructor; eauto.
  - destruct (s_pc s t) eqn:P; try discriminate.
    + destruct (s_lock s) eqn:L; [discriminate|]. intros Q. injection Q as <- <-. constructor; auto.
    + destruct (nth_error (s_handles s) i) as [[[f|] [u|]]|] eqn:N; cbn; intros Q; injection Q as <- <-.
      * eapply St_scan_busy; eauto. reflexivity.
      * apply St_scan_free; auto.
      * eapply St_scan_busy; eauto. reflexivity.
      * apply St_scan_null; auto.
      * eapply St_scan_end; eauto. apply nth_error_None. exact N.
    + destruct ok; intros Q; injection Q as <- <-; constructor; auto.
    + intros Q; injection Q as <- <-; constructor; auto.
    + intros Q; injection Q as <- <-; constructor; auto.
    + intros Q; injection Q as <- <-; constructor; auto.
    + destruct ok; intros Q; injection Q as <- <-; constructor; auto.
    + intros Q; injection Q as <- <-; constructor; auto.
    + destruct (nth_error (s_handles s) (length (s_handles s) - 1)) as [[[g|] [u|]]|] eqn:N; try discriminate. destruct (Nat.eqb_spec f g) as [->|]; [|discriminate]. intros Q; injection Q as <- <-. apply St_lock_new; auto.
    + destruct (s_lock s) eqn:L; [discriminate|]. intros Q. injection Q as <- <-. constructor; auto.
    + destruct (nth_error (s_handles s) i) eqn:N; [|discriminate]. intros Q. injection Q as <- <-. constructor; auto.
    + intros Q; injection Q as <- <-; constructor; auto.
Qed.
Fixpoint play (content : list Z) (s : state) (l : list act) : option (list event * state) :=
  match l with
  | [] => Some ([], s)
  | a :: r => match go content s a with
              | Some (o, s') => match play content s' r with Some (tr, s'') => Some (emit o ++ tr, s'') | None => None end
              | None => None
              end
  end.
Lemma play_sound content l : forall tr s tr' s', exec content tr s -> play content s l = Some (tr', s') -> exec content (tr ++ tr') s'.
Proof.
  induction l as [|a l IH]; cbn; intros tr s tr' s' E Q; [injection Q as <- <-; rewrite app_nil_r; exact E|].
  destruct (go content s a) as [[o s1]|] eqn:G; [|discriminate]. destruct (play content s1 l) as [[tr1 s2]|] eqn:P; [|discriminate]. injection Q as <- <-.
  rewrite app_assoc. eapply IH; [|exact P]. econstructor; [exact E|apply go_sound with (1 := G)].
Qed.
Definition final (content : list Z) (l : list act) : state := match play content init l with Some (_, s) => s | None => init end.
Definition trace (content : list Z) (l : list act) : list event := match play content init l with Some (tr, _) => tr | None => [] end.
Lemma played content l : exec content (trace content l) (final content l).
Proof. unfold trace, final. destruct (play content init l) as [[tr s]|] eqn:E; [apply (play_sound content l [] init tr s (Ex_init content) E)|apply Ex_init]. Qed.

(** Two threads: both seek, the reads interleave, a handle is reused. *)
Definition ex_content : list Z := [10; 11; 12; 13; 14; 15; 16; 17]%Z.
Definition gos (t n : nat) : list act := repeat (Go t true) n.
Definition ex_acts : list act :=
  [CallAccess 7] ++ gos 7 4 ++ [CallAccess 9] ++ gos 7 2 ++ [Seek 7 0 0 2 SeekSet] ++ gos 9 7 ++ [Seek 9 1 1 5 SeekSet; Read 7 0 0 2; Read 9 1 1 2; Read 7 0 0 1; CallReturn 7 0 0; Tell 9 1 1; Read 9 1 1 4]
  ++ gos 7 3 ++ [CallAccess 7] ++ gos 7 3.
Definition ex_trace : list event :=
  [ECallAccess 7; EOpen 7 0; ECallAccess 9; EAccess 7 0 0; ESeek 7 0 2 SeekSet true; EOpen 9 1; EAccess 9 1 1; ESeek 9 1 5 SeekSet true;
   ERead 7 0 2 [12; 13]%Z; ERead 9 1 2 [15; 16]%Z; ERead 7 0 1 [14]%Z; ECallReturn 7 0 0; ETell 9 1 7; ERead 9 1 4 [17]%Z; EReturned 7;
   ECallAccess 7; EAccess 7 0 0].
Example C33_ex : exists s, exec ex_content ex_trace s /\ owned ex_trace = [(7, 0); (9, 1)] /\ view 8 9 1 ex_trace = Some 8%Z /\
  length (s_handles s) = 2 /\ concurrency_at_most 2 ex_trace /\ open_failures ex_trace = 0.
Proof.
  exists (final ex_content ex_acts). split; [|split; [vm_compute; reflexivity|split; [vm_compute; reflexivity|split; [vm_compute; reflexivity|split; [|reflexivity]]]]].
  - replace ex_trace with (trace ex_content ex_acts) by (vm_compute; reflexivity). apply played.
  - intros k. do 17 (destruct k as [|k]; [vm_compute; lia|]). vm_compute. destruct k; vm_compute; lia.
Qed.

(** An fopen that fails leaves an entry behind although nothing is in use. *)
Theorem C34_failures_refuted : exists content tr s, exec content tr s /\ concurrency_at_most 0 tr /\ s_lock s = None /\ length (s_handles s) = 2.
Proof.
  pose (acts := CallAccess 1 :: repeat (Go 1 false) 5 ++ CallAccess 1 :: repeat (Go 1 false) 8).
  exists [], (trace [] acts), (final [] acts). split; [apply played|]. split; [|split; vm_compute; reflexivity].
  intros k. replace (trace [] acts) with [ECallAccess 1; EOpenFail 1; EAccessFail 1; ECallAccess 1; EOpenFail 1; EOpenFail 1; EAccessFail 1] by (vm_compute; reflexivity).
  do 8 (destruct k as [|k]; [vm_compute; lia|]). vm_compute. lia.
Qed.
(** After a transient failure a second file is opened although an open handle is free. *)
Theorem C34_reuse_refuted : exists content tr s, exec content tr s /\ concurrency_at_most 1 tr /\ count is_open tr = 2.
Proof.
  pose (acts := [CallAccess 1] ++ repeat (Go 1 false) 5 ++ [CallAccess 1] ++ repeat (Go 1 false) 4 ++ repeat (Go 1 true) 5 ++ [CallReturn 1 1 0] ++ gos 1 3 ++ [CallAccess 1] ++ gos 1 4).
  exists [], (trace [] acts), (final [] acts). split; [apply played|]. split; [|vm_compute; reflexivity].
  intros k. replace (trace [] acts) with [ECallAccess 1; EOpenFail 1; EAccessFail 1; ECallAccess 1; EOpenFail 1; EOpen 1 0; EAccess 1 1 0; ECallReturn 1 1 0; EReturned 1; ECallAccess 1; EOpen 1 1; EAccess 1 0 1] by (vm_compute; reflexivity).
  do 12 (destruct k as [|k]; [vm_compute; lia|]). destruct k; vm_compute; lia.
Qed.

Print Assumptions C33_exclusive.
Print Assumptions C33_isolated_read.
Print Assumptions C33_isolated_tell.
Print Assumptions C34_bound.
Print Assumptions C34_reuse.
Print Assumptions C49_no_deadlock.
Print Assumptions C50_close.
