(** * Property C98: families of d3plot files in the build without thread safety *)
From Verif Require Import CBase CBaseFacts BinModel D3BufModel D3BufSpec D3BufProofs D3SeqModel D3SeqSpec D3SeqProofs PropD3Buf.
Open Scope Z_scope.

(** Opening a family with a process limit of [limit] open files: the first
    [limit] files are open, no others, and the buffer is otherwise what the
    thread safe build makes of it. *)
Theorem C98_open : forall limit fs root files, family_of fs root files -> sound_family (start_buffer files) -> 184 <= total (start_buffer files) -> (1 <= limit)%nat ->
  (length files <= limit)%nat \/ (exists f, nth_error files 0 = Some f /\ 184 <= f_size f) ->
  exists b, s_open_buffer limit fs root = OK b /\ open fs root = OK (erase b) /\ s_limit b = limit /\
    window b /\ s_first b = 0%nat /\ s_last b = (Nat.min limit (length files) - 1)%nat.
Proof.
  intros limit fs root files F Sd T Lm A.
  assert (E : family MAX_FILES fs root 0 = files) by (apply (family_unique fs root); [apply family_family_of|exact F]).
  destruct (s_open_ok limit fs root files E Sd T Lm A (proj1 F)) as (b & O & O' & W & F0 & La & Li). exists b. auto 10.
Qed.

(** A family that is too short for a control block, which is undefined behaviour
    in the thread safe build (C51), is either rejected with an error or taken for
    one of 4-byte words if the words that are there are plausible. *)
Theorem C98_short_family : forall limit fs root files, family_of fs root files -> files <> [] -> sound_family (start_buffer files) -> total (start_buffer files) < 184 ->
  (length files <= limit)%nat ->
  open fs root = UB /\
  exists b, s_open_buffer limit fs root = OK b /\ window b /\ d_files (erase b) = files /\ s_limit b = limit /\
    (s_err b = None <-> 92 <= total (start_buffer files) /\ plausible (start_buffer files) 4) /\ (s_err b = None -> s_ws b = 4).
Proof.
  intros limit fs root files F Ne Sd T Lm.
  assert (E : family MAX_FILES fs root 0 = files) by (apply (family_unique fs root); [apply family_family_of|exact F]).
  split; [apply (open_short fs root files E Ne (proj1 Sd) T)|]. apply (s_open_short limit fs root files E Ne Sd T Lm (proj1 F)).
Qed.
(** A missing family is an error with a message, as in the thread safe build. *)
Theorem C98_missing : forall limit fs root, fs root = None -> (length root <= 991)%nat ->
  exists b, s_open_buffer limit fs root = OK b /\ s_err b = Some E_no_files /\ s_files b = [] /\ s_count b = 0%nat.
Proof.
  intros limit fs root N L. unfold s_open_buffer.
  assert (family MAX_FILES fs root 0 = []) as ->.
  { rewrite (family_unique fs root (family MAX_FILES fs root 0) []); [reflexivity|apply family_family_of|].
    split; [cbn; lia|]. split; [intros [|k] f Q; discriminate|]. intros _. cbn. rewrite app_nil_r. exact N. }
  cbn [length Nat.eqb s_open_files]. replace (length root + 33 <=? 1024)%nat with true by (symmetry; apply Nat.leb_le; lia).
  eexists. split; [reflexivity|]. repeat split.
Qed.

(** Reads that start in an open file, or so far away from the open files that
    all of them are exchanged, deliver exactly the pieces of the data, as in the
    thread safe build; as many files are open afterwards as before. *)
Theorem C98_reads_partial : forall b pos counts i, window b -> sound_family (erase b) -> s_err b = None ->
  0 <= pos -> lies_in b pos i -> in_window b i \/ far b i -> Forall (fun n => 0 <= n) counts -> (pos + sum counts) * s_ws b <= total (erase b) ->
  exists b' p, s_reads_at b pos counts = OK (b', p, pieces (erase b) pos counts) /\ reads_at (erase b) pos counts = OK (erase b, p, pieces (erase b) pos counts) /\
    erase b' = erase b /\ window b' /\ s_count b' = s_count b /\ s_limit b' = s_limit b.
Proof.
  intros b pos counts i W Sd Er P Li R F L. pose proof (sound_ws _ Sd) as Ws. assert (T : total (erase b) < 2 ^ 63) by apply Sd.
  destruct (seek_good b pos i W Sd P Li R) as (b1 & p & E1 & E2 & St & Pw & Sm & W1 & Pf & I1 & C1 & _).
  pose proof (stands_total _ _ _ Sd St) as Tt. pose proof (same_erase _ _ Sm) as Ee. assert (Er1 : s_err b1 = None) by (apply (f_equal d_err) in Ee; cbn [erase d_err] in Ee; congruence).
  change (s_ws b) with (d_ws (erase b)) in *.
  destruct (reads_in (erase b) Sd Er counts p pos pos St P F L) as (p' & w' & Rd & _); [rewrite Pw, u64_id by nia; reflexivity|].
  unfold s_reads_at, reads_at. rewrite E1, E2. cbn [bind]. change (d_err (erase b)) with (s_err b). rewrite Er, Er1.
  assert (Sd1 : sound_family (erase b1)) by (rewrite Ee; exact Sd).
  pose proof (reads_sim counts b1 p i W1 (sound_openable b1 Sd1) Er1 Pf I1) as Sim. rewrite Ee, Rd in Sim. destruct Sim as (b2 & E3 & (W2 & _ & _ & Lm & C2 & _) & Ee2).
  exists b2, p'. split; [exact E3|]. split; [exact Rd|]. split; [exact Ee2|]. split; [exact W2|]. split; [congruence|]. rewrite Lm. destruct Sm. assumption.
Qed.

(** If the limit is not reached (all files are open) every read is that of the
    thread safe build, and the files stay open. *)
Theorem C98_plenty : forall b pos counts, window b -> s_first b = 0%nat -> (s_last b + 1 = length (s_files b))%nat -> sound_family (erase b) -> s_err b = None ->
  0 <= pos -> Forall (fun n => 0 <= n) counts -> pos * s_ws b < total (erase b) -> (pos + sum counts) * s_ws b <= total (erase b) ->
  exists p, s_reads_at b pos counts = OK (b, p, pieces (erase b) pos counts) /\ reads_at (erase b) pos counts = OK (erase b, p, pieces (erase b) pos counts).
Proof.
  intros b pos counts W F0 La Sd Er P F A L. destruct (lies_exists b pos Sd P A) as (i & Li).
  assert (I : in_window b i). { destruct Li as (pre & g & post & Ef & Lp & _). unfold in_window. rewrite Ef, app_length in La. cbn in La. lia. }
  destruct (C98_reads_partial b pos counts i W Sd Er P Li (or_introl I) F L) as (b' & p & E & E' & Ee & W' & C & Lm). exists p. split; [|exact E'].
  rewrite E. do 2 f_equal. f_equal. assert (M : map sf_file (s_files b') = map sf_file (s_files b)) by (apply (f_equal d_files) in Ee; exact Ee).
  assert (Ln : length (s_files b') = length (s_files b)) by (rewrite <- (map_length sf_file), M, map_length; reflexivity).
  destruct W as ((w1 & w2) & w3 & w4 & w5 & w6). destruct W' as ((v1 & v2) & v3 & v4 & v5 & v6).
  apply window_eq; auto; try lia; [exact (conj (conj w1 w2) (conj w3 (conj w4 (conj w5 w6))))|exact (conj (conj v1 v2) (conj v3 (conj v4 (conj v5 v6))))| |].
  - apply (f_equal d_ws) in Ee. exact Ee.
  - apply (f_equal d_err) in Ee. exact Ee.
Qed.

(** Outside of the data the error is that of the thread safe build; the open
    files do not change. *)
Theorem C98_outside : forall b pos, sound_family (erase b) -> 0 <= pos -> total (erase b) <= pos * s_ws b < 2 ^ 64 ->
  s_seek b pos = OK (s_set_err b (Some E_oob), closed) /\ seek (erase b) pos = OK (set_err (erase b) E_oob, closed).
Proof.
  intros b pos Sd P L. split; [|apply seek_out; auto]. unfold s_seek, s_locate. rewrite u64_id by (unfold total in L; lia).
  rewrite locate_none; [reflexivity|apply Sd|unfold total, all_bytes in L; unfold zlen; exact (proj1 L)].
Qed.
Theorem C98_read_outside : forall b pos n, sound_family (erase b) -> 0 <= pos -> total (erase b) <= pos * s_ws b < 2 ^ 64 ->
  s_read_words_at b n pos = OK (s_set_err b (Some E_seek_failed), closed, []).
Proof. intros b pos n Sd P L. unfold s_read_words_at. rewrite (proj1 (C98_outside b pos Sd P L)). reflexivity. Qed.
(** Skipping words is the same as seeking. *)
Theorem C98_skip : forall b p pos n i, window b -> sound_family (erase b) -> p_word p = pos -> 0 <= pos -> 0 <= n -> lies_in b (pos + n) i -> in_window b i \/ far b i ->
  exists b' p', s_skip_words b p n = OK (b', p') /\ stands_at (erase b) p' ((pos + n) * s_ws b) /\ p_word p' = pos + n /\
    window b' /\ erase b' = erase b /\ s_count b' = s_count b.
Proof.
  intros b p pos n i W Sd Pw P N Li R. destruct (seek_good b (pos + n) i W Sd ltac:(lia) Li R) as (b' & p' & E1 & _ & St & Pw' & Sm & W' & _ & _ & C & _).
  pose proof (stands_total _ _ _ Sd St) as Tt. pose proof (sound_ws _ Sd) as Ws. assert (T : total (erase b) < 2 ^ 63) by apply Sd. change (d_ws (erase b)) with (s_ws b) in Ws.
  unfold s_skip_words. rewrite Pw. unfold ULONG_MAX. rewrite (u64_id (2 ^ 64 - 1 - n)) by nia. assert (((2 ^ 64 - 1 - n <=? pos) = false)) as -> by nia. rewrite u64_id by nia.
  exists b', p'. split; [exact E1|]. split; [exact St|]. split; [exact Pw'|]. split; [exact W'|]. split; [apply same_erase, Sm|exact C].
Qed.
(** A read from a pointer into an open file that wants more than there is: the
    same error and the same bytes. *)
Theorem C98_too_much : forall b p pos n i, window b -> sound_family (erase b) -> s_err b = None -> stands_at (erase b) p pos -> p_file p = Some i -> in_window b i ->
  0 <= n -> total (erase b) < pos + n * s_ws b -> n * s_ws b < 2 ^ 64 ->
  exists b', s_read_words b p n = OK (b', closed, bytes_from (erase b) pos (total (erase b) - pos)) /\ s_err b' = Some E_too_much /\ window b' /\ s_count b' = s_count b.
Proof.
  intros b p pos n i W Sd Er St Pf I N L B. pose proof (C36_read (erase b) p pos n Sd Er St N L B) as R.
  pose proof (read_sim b p n i W (sound_openable b Sd) Pf I) as Sim. rewrite R in Sim. destruct Sim as (b' & E & (W' & _ & _ & _ & C & _) & Ee & _).
  exists b'. split; [exact E|]. split; [apply (f_equal d_err) in Ee; exact Ee|]. auto.
Qed.

(** ** What goes wrong *)

Lemma near_file b pos i : lies_in b pos i -> (i < length (s_files b))%nat.
Proof. intros (pre & f & post & E & Lp & _). rewrite E, app_length. cbn. lia. Qed.

(** At the limit, any seek to a file that is not open and not far away fails:
    the file the window ends with is opened a second time before others are
    closed, and the process may not open more files. *)
Theorem C98_near_refuted : forall b pos i, window b -> sound_family (erase b) -> tight b -> 0 <= pos -> lies_in b pos i -> near b i ->
  (exists b', s_seek b pos = OK (b', closed) /\ s_err b' = Some E_open_next) /\ (exists p, seek (erase b) pos = OK (erase b, p) /\ stands_at (erase b) p (pos * s_ws b)).
Proof.
  intros b pos i W Sd Ti P Li Nr. destruct (seek_step b pos i Sd P Li) as (Lt & q & E1 & St & ->). split; [|eauto].
  rewrite (win_closed b i W) by apply Nr. destruct (move_near b i W (sound_openable b Sd) Nr) as (b' & -> & _). unfold tight in Ti. rewrite Ti, Nat.ltb_irrefl. cbn [bind].
  exists (s_set_err b' (Some E_open_next)). split; reflexivity.
Qed.
(** If only one file may be open, a seek into another one is fseek(NULL). *)
Theorem C98_single_refuted : forall b pos i, window b -> sound_family (erase b) -> s_first b = s_last b -> 0 <= pos -> lies_in b pos i -> i <> s_last b -> s_seek b pos = UB.
Proof.
  intros b pos i W Sd One P Li Ne. destruct (seek_step b pos i Sd P Li) as (Lt & q & _ & _ & ->).
  assert (NW : ~ in_window b i) by (unfold in_window; lia). pose proof (win_closed b i W NW) as Eo. rewrite Eo. unfold s_move, s_out_of_range. rewrite One, Z.ltb_irrefl, Nat.ltb_irrefl. cbn [bind].
  unfold opn in Eo. destruct (nth_error (s_files b) i) as [f|] eqn:E; [|apply nth_error_None in E; lia]. rewrite (proj2 (aget_OK _ _ _) E). cbn [bind]. rewrite Eo. reflexivity.
Qed.
(** Below the limit, going back to the first file runs out of the array. *)
Theorem C98_wrap_refuted : forall b pos, window b -> sound_family (erase b) -> (s_count b < s_limit b)%nat -> 0 <= pos -> lies_in b pos 0 -> near b 0 -> s_seek b pos = UB.
Proof.
  intros b pos W Sd Lt P Li Nr. destruct (seek_step b pos 0 Sd P Li) as (_ & q & _ & _ & ->). rewrite (win_closed b 0 W) by apply Nr.
  destruct (move_near b 0 W (sound_openable b Sd) Nr) as (b' & -> & _). destruct (Nat.ltb_spec (s_count b) (s_limit b)); [reflexivity|lia].
Qed.
(** Below the limit, going ahead works, but a FILE of which nobody knows stays
    open: more files are open than the window has. *)
Theorem C98_leak_refuted : forall b pos i, window b -> sound_family (erase b) -> (s_count b < s_limit b)%nat -> 0 <= pos -> lies_in b pos i -> near b i -> (s_last b < i)%nat ->
  exists b' p, s_seek b pos = OK (b', p) /\ seek (erase b) pos = OK (erase b, p) /\ s_count b' = (s_count b + 1)%nat /\ (s_last b' + 1 - s_first b' = s_count b)%nat.
Proof.
  intros b pos i W Sd Lt P Li Nr Ah. destruct (seek_step b pos i Sd P Li) as (_ & q & E & _ & ->). rewrite (win_closed b i W) by apply Nr.
  destruct (move_near b i W (sound_openable b Sd) Nr) as (b' & -> & _ & H). destruct (Nat.ltb_spec (s_count b) (s_limit b)); [|lia]. destruct (Nat.eqb_spec i 0); [lia|]. cbn [bind].
  destruct (H Lt Ah) as (F & La & C & O). destruct (opn_get b' i O) as (f & Ef & Of). rewrite Ef. cbn [bind]. rewrite Of. exists b', (s_pointer i pos q). split; [reflexivity|]. split; [exact E|]. split; [exact C|].
  destruct W as ((w1 & w2) & _ & _ & w5 & _). lia.
Qed.

(** ** Concrete cases: 24 bytes in six files *)
Definition ex_seq (first last limit : nat) : sbuf :=
  {| s_files := map (fun ' (i, f) => {| sf_file := f; sf_open := (first <=? i)%nat && (i <=? last)%nat |}) (combine (seq 0 6) (ex_split [4; 4; 4; 4; 4]%nat ex_data));
     s_first := first; s_last := last; s_ws := 4; s_err := None; s_count := (last + 1 - first)%nat; s_limit := limit |}.
Lemma ex_seq_window first last limit : (first <= last < 6)%nat -> (last + 1 - first <= limit)%nat -> window (ex_seq first last limit).
Proof.
  intros L Lm. unfold window, ex_seq. cbn [s_first s_last s_files s_count s_limit]. change (length (map _ _)) with 6%nat. split; [lia|]. split; [lia|]. split; [|lia].
  intros i f E. do 6 (destruct i as [|i]; [cbn in E; injection E as <-; reflexivity|]). destruct i; discriminate E.
Qed.
Lemma ex_seq_erase first last limit : erase (ex_seq first last limit) = ex_family [4; 4; 4; 4; 4]%nat.
Proof. reflexivity. Qed.
Lemma ex_seq_sound first last limit : sound_family (erase (ex_seq first last limit)).
Proof. rewrite ex_seq_erase. split; [apply ex_sound|split; [vm_compute; reflexivity|left; reflexivity]]. Qed.
Lemma ex_seq_lies first last limit i : (i < 6)%nat -> lies_in (ex_seq first last limit) (Z.of_nat i) i.
Proof.
  intros L. set (b := ex_seq first last limit). exists (firstn i (s_files b)).
  destruct (nth_error (s_files b) i) as [f|] eqn:E; [|apply nth_error_None in E; change (length (s_files b)) with 6%nat in E; lia].
  exists f, (skipn (Datatypes.S i) (s_files b)). apply nth_error_split in E as (l1 & l2 & E & E1). split; [|split].
  - rewrite E, <- E1. rewrite firstn_app, Nat.sub_diag, firstn_all, app_nil_r. f_equal. rewrite skipn_app, skipn_all2, app_nil_l by lia. replace (Datatypes.S (length l1) - length l1)%nat with 1%nat by lia. reflexivity.
  - rewrite firstn_length. change (length (s_files b)) with 6%nat. lia.
  - assert (Ei : nth_error (s_files b) i = Some f) by (rewrite E, nth_error_app2, E1, Nat.sub_diag by lia; reflexivity). clear E E1 l1 l2.
    do 6 (destruct i as [|i]; [cbn in Ei; injection Ei as <-; vm_compute; split; congruence|]). lia.
Qed.

(** Two files at a time, all six can be read; the sixth is far away from the first two. *)
Example C98_example : let b := ex_seq 0 1 2 in
  window b /\ sound_family (erase b) /\ tight b /\
  (exists b' p, s_reads_at b 0 [1; 3; 2] = OK (b', p, [[0; 1; 2; 3]; [4; 5; 6; 7; 8; 9; 10; 11; 12; 13; 14; 15]; [16; 17; 18; 19; 20; 21; 22; 23]]) /\ s_first b' = 4%nat /\ s_last b' = 5%nat /\ s_count b' = 2%nat) /\
  lies_in b 5 5 /\ far b 5 /\ (exists b' p, s_reads_at b 5 [1] = OK (b', p, [[20; 21; 22; 23]]) /\ s_first b' = 4%nat).
Proof.
  cbv zeta. split; [apply ex_seq_window; lia|]. split; [apply ex_seq_sound|]. split; [reflexivity|].
  split; [eexists _, _; split; [vm_compute; reflexivity|repeat split]|]. split; [apply (ex_seq_lies 0 1 2 5); lia|]. split; [unfold far; cbn; lia|]. eexists _, _. split; [vm_compute; reflexivity|reflexivity].
Qed.
(** ... but the third file cannot be reached from there, and afterwards nothing
    can be read; with a limit of one no other file can. *)
Example C98_near_example : let b := ex_seq 0 1 2 in near b 2 /\ lies_in b 2 2 /\ (exists b' p, s_reads_at b 2 [1] = OK (b', p, []) /\ s_err b' = Some E_open_next) /\
  s_seek (ex_seq 0 0 1) 1 = UB.
Proof.
  cbv zeta. split; [unfold near, far, in_window; cbn; lia|]. split; [apply (ex_seq_lies 0 1 2 2); lia|]. split; [eexists _, _; split; vm_compute; reflexivity|vm_compute; reflexivity].
Qed.
Example C98_below_example : let b := ex_seq 2 3 5 in window b /\ near b 0 /\ s_seek b 0 = UB /\ near b 4 /\ exists b' p, s_seek b 4 = OK (b', p) /\ s_count b' = 3%nat /\ s_first b' = 3%nat /\ s_last b' = 4%nat.
Proof.
  cbv zeta. split; [apply ex_seq_window; lia|]. split; [unfold near, far, in_window; cbn; lia|]. split; [vm_compute; reflexivity|]. split; [unfold near, far, in_window; cbn; lia|]. eexists _, _. split; [vm_compute; reflexivity|]. repeat split.
Qed.
(** The family of two files of C37_example with a limit of one file. *)
Example C98_open_example : exists b, s_open_buffer 1 (fun n => if list_eq_dec Z.eq_dec n ex_root then Some (mkf (ex_control 4)) else if list_eq_dec Z.eq_dec n (ex_root ++ [48; 49]) then Some (mkf [1; 2; 3; 4]) else None) ex_root = OK b /\
  s_err b = None /\ s_ws b = 4 /\ map sf_open (s_files b) = [true; false].
Proof. eexists. split; [vm_compute; reflexivity|repeat split]. Qed.

Print Assumptions C98_open.
Example C98_short_example : forall k, In k [0; 50; 91; 92; 150; 183]%nat ->
  exists b, s_open_buffer 5 (fun n => if list_eq_dec Z.eq_dec n ex_root then Some (mkf (firstn k (ex_control 4))) else None) ex_root = OK b /\ (s_err b = None <-> (92 <= k)%nat).
Proof. intros k I. repeat (destruct I as [<- |I]; [eexists; split; [vm_compute; reflexivity|cbn; split; [try discriminate; lia|try reflexivity; lia]]|]). destruct I. Qed.

Print Assumptions C98_short_family.
Print Assumptions C98_missing.
Print Assumptions C98_read_outside.
Print Assumptions C98_skip.
Print Assumptions C98_reads_partial.
Print Assumptions C98_plenty.
Print Assumptions C98_outside.
Print Assumptions C98_too_much.
Print Assumptions C98_near_refuted.
Print Assumptions C98_single_refuted.
Print Assumptions C98_wrap_refuted.
Print Assumptions C98_leak_refuted.
