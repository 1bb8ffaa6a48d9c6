(** * Properties C35, C36, C37, C51, C52 *)
From Verif Require Import CBase CBaseFacts BinModel D3BufModel D3BufSpec D3BufProofs.
Open Scope Z_scope.

(** ** C35: reading does not depend on the files *)

(** Any sequence of reads inside of the data delivers, for every way the bytes
    are split into files, exactly the pieces of the concatenation. *)
Theorem C35_reads : forall b pos counts, sound_family b -> d_err b = None ->
  0 <= pos -> Forall (fun n => 0 <= n) counts -> pos * d_ws b < total b -> (pos + sum counts) * d_ws b <= total b ->
  exists p, reads_at b pos counts = OK (b, p, pieces b pos counts) /\ stands_at b p ((pos + sum counts) * d_ws b) /\
    (aligned b -> p_word p = pos + sum counts).
Proof.
  intros b pos counts S Er P F A L. pose proof (sound_ws b S) as Ws. assert (T : total b < 2 ^ 63) by apply S.
  unfold reads_at. destruct (seek_in b pos S P A) as (p & Q & At & Pw). rewrite Q. cbn [bind]. rewrite Er.
  destruct (reads_in b S Er counts p pos pos At P F L) as (p' & w' & R & At' & Pw' & Al); [rewrite Pw, u64_id by nia; reflexivity|].
  exists p'. split; [exact R|]. split; [exact At'|]. intros G. rewrite Pw', (Al G). apply u64_id.
  assert (0 <= sum counts) by (clear - F; induction F; cbn; lia). nia.
Qed.

(** The same data in two differently split families. *)
Theorem C35_split_independent : forall b b' pos counts, sound_family b -> sound_family b' -> d_err b = None -> d_err b' = None ->
  all_bytes b = all_bytes b' -> d_ws b = d_ws b' ->
  0 <= pos -> Forall (fun n => 0 <= n) counts -> pos * d_ws b < total b -> (pos + sum counts) * d_ws b <= total b ->
  exists p p' data, reads_at b pos counts = OK (b, p, data) /\ reads_at b' pos counts = OK (b', p', data).
Proof.
  intros b b' pos counts S S' Er Er' Eb Ew P F A L.
  destruct (C35_reads b pos counts S Er P F A L) as (p & R & _).
  assert (Et : total b = total b') by (unfold total; rewrite Eb; reflexivity).
  rewrite Et, Ew in A, L. destruct (C35_reads b' pos counts S' Er' P F A L) as (p' & R' & _).
  exists p, p', (pieces b pos counts). split; [exact R|]. rewrite R'. f_equal. f_equal. clear - Eb Ew. revert pos.
  induction counts as [|n r IH]; intros pos; cbn; [reflexivity|]. rewrite IH, Ew. unfold bytes_from. rewrite Eb. reflexivity.
Qed.

(** Skipping words is the same as seeking. *)
Theorem C35_skip : forall b p pos n, sound_family b -> stands_at b p (pos * d_ws b) -> p_word p = pos -> 0 <= pos -> 0 <= n -> (pos + n) * d_ws b < total b ->
  exists p', skip_words b p n = OK (b, p') /\ stands_at b p' ((pos + n) * d_ws b) /\ p_word p' = pos + n.
Proof. exact skip_in. Qed.

Definition mkf (l : list Z) : dfile := {| f_bytes := l; f_size := Z.of_nat (length l); f_ok := true |}.
Definition ex_split (sizes : list nat) (data : list Z) : list dfile :=
  (fix go s d := match s with [] => [mkf d] | k :: r => mkf (firstn k d) :: go r (skipn k d) end) sizes data.
Definition ex_data : list Z := map Z.of_nat (seq 0 24).
Definition ex_family (sizes : list nat) : dbuf := {| d_files := ex_split sizes ex_data; d_ws := 4; d_err := None |}.
Lemma ex_sound sizes : Forall (fun f => f_size f = Z.of_nat (length (f_bytes f)) /\ f_ok f = true) (ex_split sizes ex_data).
Proof. unfold ex_split. generalize ex_data. induction sizes as [|k r IH]; intros d; repeat constructor. apply IH. Qed.

(** Non-vacuity: 24 bytes in four files, one of them empty; a read over two
    boundaries. *)
Example C35_example : let b := ex_family [4; 0; 8]%nat in
  sound_family b /\ aligned b /\ length (d_files b) = 4%nat /\
  reads_at b 0 [2; 3] = OK (b, {| p_file := Some 3%nat; p_word := 5; p_pos := 8 |}, [[0; 1; 2; 3; 4; 5; 6; 7]; [8; 9; 10; 11; 12; 13; 14; 15; 16; 17; 18; 19]]).
Proof.
  cbv zeta. split; [split; [apply ex_sound|split; [vm_compute; reflexivity|left; reflexivity]]|].
  split; [|split; vm_compute; reflexivity].
  unfold aligned, ex_family, ex_split, ex_data. vm_compute d_files. vm_compute d_ws.
  repeat constructor; cbn; [exists 1|exists 0|exists 2|exists 3]; reflexivity.
Qed.

(** If a file ends inside of a word the data is right, but the position the
    pointer reports is not. *)
Theorem C35_position_refuted : exists b pos counts p data, sound_family b /\ d_err b = None /\
  0 <= pos /\ (pos + sum counts) * d_ws b <= total b /\ reads_at b pos counts = OK (b, p, data) /\ data = pieces b pos counts /\ p_word p <> pos + sum counts.
Proof.
  exists (ex_family [6]%nat), 0, [2], {| p_file := Some 1%nat; p_word := 1; p_pos := 2 |}, [[0; 1; 2; 3; 4; 5; 6; 7]].
  split; [split; [apply ex_sound|split; [vm_compute; reflexivity|left; reflexivity]]|].
  repeat split; try (vm_compute; congruence). 
Qed.

(** ** C36: outside of the data *)

(** A seek to or beyond the end is an error. *)
Theorem C36_seek : forall b pos, sound_family b -> 0 <= pos -> total b <= pos * d_ws b < 2 ^ 64 ->
  exists p, seek b pos = OK (set_err b E_oob, p) /\ p = closed.
Proof. intros b pos S P L. exists closed. split; [apply seek_out; auto|reflexivity]. Qed.
(** A read that needs more than is left is an error; only bytes of the stream
    behind the pointer were written to the caller's buffer. *)
Theorem C36_read : forall b p pos n, sound_family b -> d_err b = None -> stands_at b p pos -> 0 <= n -> total b < pos + n * d_ws b -> n * d_ws b < 2 ^ 64 ->
  read_words b p n = OK (set_err b E_too_much, closed, bytes_from b pos (total b - pos)).
Proof.
  intros b p pos n S Er At N L Big. pose proof (stands_total _ _ _ S At). rewrite (read_out b p pos n) by assumption.
  unfold bytes_from. rewrite firstn_all2; [reflexivity|]. rewrite skipn_length. unfold total in *. lia.
Qed.
Theorem C36_read_at : forall b pos n, sound_family b -> d_err b = None -> 0 <= pos -> 0 <= n -> total b <= pos * d_ws b \/ total b < (pos + n) * d_ws b ->
  pos * d_ws b < 2 ^ 64 -> n * d_ws b < 2 ^ 64 ->
  exists e data, read_words_at b n pos = OK (set_err b e, closed, data) /\ exists k, data = bytes_from b (pos * d_ws b) k.
Proof.
  intros b pos n S Er P N L B1 B2. pose proof (sound_ws b S). unfold read_words_at.
  destruct (Z.lt_ge_cases (pos * d_ws b) (total b)) as [In|Out].
  - destruct (seek_in b pos S P In) as (p & Q & At & Pw). rewrite Q. cbn [bind]. rewrite Er.
    rewrite (C36_read b p (pos * d_ws b) n) by (auto; lia). eexists _, _. split; [reflexivity|]. eexists; reflexivity.
  - rewrite (seek_out b pos) by (auto; lia). cbn [bind set_err d_err]. exists E_seek_failed, []. split; [reflexivity|]. exists 0. reflexivity.
Qed.
Theorem C36_skip : forall b p pos n, sound_family b -> stands_at b p (pos * d_ws b) -> p_word p = pos -> 0 <= pos -> 0 <= n < 2 ^ 64 -> total b <= (pos + n) * d_ws b ->
  (pos + n) * d_ws b < 2 ^ 64 \/ 2 ^ 64 - 1 <= pos + n ->
  exists e, skip_words b p n = OK (set_err b e, closed).
Proof. exact skip_out. Qed.

Example C36_example : let b := ex_family [4; 0; 8]%nat in
  seek b 6 = OK (set_err b E_oob, closed) /\
  read_words_at b 3 4 = OK (set_err b E_too_much, closed, [16; 17; 18; 19; 20; 21; 22; 23]).
Proof. split; vm_compute; reflexivity. Qed.

(** A word position whose byte position does not fit 64 bits wraps around and
    delivers the first bytes of the data. *)
Theorem C36_wrap_refuted : exists b pos p data, sound_family b /\ d_err b = None /\ 0 <= pos < 2 ^ 64 /\ total b <= pos * d_ws b /\
  read_words_at b 1 pos = OK (b, p, data) /\ data = bytes_from b 0 4.
Proof.
  exists (ex_family []), (2 ^ 62). eexists _, _. split; [split; [apply ex_sound|split; [vm_compute; reflexivity|left; reflexivity]]|].
  split; [reflexivity|]. split; [lia|]. split; [vm_compute; discriminate|]. split; vm_compute; reflexivity.
Qed.
(** The pattern used by every reader of d3plot.c, to close the pointer before
    looking at the error, has undefined behaviour after a failed read or seek. *)
Theorem C36_close_after_error_refuted : exists b pos n b' p data, sound_family b /\ d_err b = None /\
  read_words_at b n pos = OK (b', p, data) /\ d_err b' <> None /\ pointer_close b' p = UB.
Proof.
  exists (ex_family []), 4, 3. eexists _, _, _. split; [split; [apply ex_sound|split; [vm_compute; reflexivity|left; reflexivity]]|].
  split; [reflexivity|]. split; [vm_compute; reflexivity|]. split; [discriminate|reflexivity].
Qed.

(** ** C52: the files of a family *)
(** Opening uses exactly the files root, root01, ..., up to the first gap. *)
Theorem C52_family : forall fs root files b, open fs root = OK b -> family_of fs root files -> d_files b = files.
Proof.
  intros fs root files b O F.
  assert (E : family MAX_FILES fs root 0 = files).
  { apply (family_unique fs root); [apply family_family_of|exact F]. }
  eapply open_files; [exact O|exact E].
Qed.
(** If the first file does not exist, opening fails with a message. *)
Theorem C52_missing : forall fs root, fs root = None -> (length root <= 991)%nat ->
  exists b, open fs root = OK b /\ d_err b = Some E_no_files /\ d_files b = [].
Proof.
  intros fs root N L. unfold open.
  assert (family MAX_FILES fs root 0 = []) as ->.
  { rewrite (family_unique fs root (family MAX_FILES fs root 0) []); [reflexivity|apply family_family_of|].
    split; [cbn; lia|]. split; [intros [|k] f Q; discriminate|]. intros _. cbn. rewrite app_nil_r. exact N. }
  cbn [length Nat.eqb]. replace (length root + 33 <=? 1024)%nat with true by (symmetry; apply Nat.leb_le; lia).
  eexists. split; [reflexivity|]. split; reflexivity.
Qed.

(** ** C37: the word size *)

(** The outcome of opening a family with a complete control block. *)
Theorem C37_word_size : forall fs root files, family_of fs root files -> sound_family (start_buffer files) -> 184 <= total (start_buffer files) ->
  exists b, open fs root = OK b /\ d_files b = files /\
    (d_err b = None <-> (plausible b 4 /\ ~ plausible b 8 /\ d_ws b = 4) \/ (plausible b 8 /\ ~ plausible b 4 /\ d_ws b = 8)) /\
    (d_err b <> None <-> (plausible b 4 <-> plausible b 8)).
Proof.
  intros fs root files F S L.
  assert (E : family MAX_FILES fs root 0 = files) by (apply (family_unique fs root); [apply family_family_of|exact F]).
  rewrite (open_ok fs root files E S L). cbv zeta. set (b := start_buffer files).
  pose proof (makes_sense_spec b 4) as P4. pose proof (makes_sense_spec b 8) as P8. fold (verdict b 4) in P4. fold (verdict b 8) in P8.
  assert (Em : d_err b = None) by reflexivity.
  eexists. split; [reflexivity|]. 
  destruct (verdict b 4) eqn:V4, (verdict b 8) eqn:V8; cbn [negb andb orb set_err set_ws d_err d_files d_ws].
  all: split; [reflexivity|].
  all: change (plausible (set_err (set_ws b 8) E_broken)) with (plausible b) || change (plausible (set_ws b 8)) with (plausible b) || change (plausible (set_ws b 4)) with (plausible b).
  all: destruct P4 as [A4 B4]; destruct P8 as [A8 B8].
  - assert (plausible b 4) by auto. assert (plausible b 8) by auto. intuition discriminate.
  - assert (plausible b 4) by auto. assert (~ plausible b 8) by (intros X; apply B8 in X; discriminate). intuition (try discriminate).
  - assert (plausible b 8) by auto. assert (~ plausible b 4) by (intros X; apply B4 in X; discriminate). intuition (try discriminate).
  - assert (~ plausible b 4) by (intros X; apply B4 in X; discriminate). assert (~ plausible b 8) by (intros X; apply B8 in X; discriminate). intuition (try discriminate).
Qed.

(** Non-vacuity: a control block of 4-byte words (NDIM 4, ICODE 6, INUM 1, IT 0,
    IA 1), split into two files; and the same with 8-byte words. *)
Definition ex_word (ws : nat) (i : nat) : list Z :=
  (match Z.of_nat i with 15 => 4 | 17 => 6 | 11 => 1 | 22 => 1 | _ => 0 end) :: repeat 0 (ws - 1).
Definition ex_control (ws : nat) : list Z := concat (map (ex_word ws) (seq 0 64)).
Definition ex_root : list Z := [100; 51].
Definition ex_fs (ws : nat) (name : list Z) : option dfile :=
  if list_eq_dec Z.eq_dec name ex_root then Some (mkf (firstn 100 (ex_control ws)))
  else if list_eq_dec Z.eq_dec name (ex_root ++ [48; 49]) then Some (mkf (skipn 100 (ex_control ws)))
  else None.
Example C37_example : forall ws, ws = 4%nat \/ ws = 8%nat -> exists files, family_of (ex_fs ws) ex_root files /\ length files = 2%nat /\
  sound_family (start_buffer files) /\ 184 <= total (start_buffer files) /\
  exists b, open (ex_fs ws) ex_root = OK b /\ d_err b = None /\ d_ws b = Z.of_nat ws.
Proof.
  intros ws W. exists [mkf (firstn 100 (ex_control ws)); mkf (skipn 100 (ex_control ws))].
  split; [split; [|split]|].
  - unfold MAX_FILES. cbn [length]. lia.
  - intros [|[|i]] f; cbn [nth_error]; [intros [= <-]|intros [= <-]|intros Q; destruct i; discriminate]; reflexivity.
  - intros _. reflexivity.
  - split; [reflexivity|]. split; [split; [repeat constructor|split; [|left; reflexivity]]; destruct W as [-> | ->]; vm_compute; reflexivity|].
    split; [destruct W as [-> | ->]; vm_compute; discriminate|].
    destruct W as [-> | ->]; eexists; (split; [vm_compute; reflexivity|split; reflexivity]).
Qed.

(** ** C51: opening is not safe *)

(** Opening any family of readable files with at least 184 bytes, and a missing
    family with a name of at most 991 characters, is defined behaviour. *)
Theorem C51_open_partial : forall fs root files, family_of fs root files -> 
  (sound_family (start_buffer files) /\ 184 <= total (start_buffer files)) \/ (files = [] /\ (length root <= 991)%nat) ->
  exists b, open fs root = OK b.
Proof.
  intros fs root files F [(S & L)|(-> & L)].
  - destruct (C37_word_size fs root files F S L) as (b & O & _). eauto.
  - destruct F as (_ & _ & F). destruct (C52_missing fs root) as (b & O & _); eauto. cbn in F. rewrite app_nil_r in F. apply F. unfold MAX_FILES. lia.
Qed.
(** An empty file, or any file of less than 184 bytes, is undefined behaviour. *)
Theorem C51_short_file_refuted : forall fs root files, family_of fs root files -> files <> [] ->
  Forall good_file files -> total (start_buffer files) < 184 -> open fs root = UB.
Proof.
  intros fs root files F Ne G L.
  assert (E : family MAX_FILES fs root 0 = files) by (apply (family_unique fs root); [apply family_family_of|exact F]).
  apply (open_short fs root files E Ne G L).
Qed.
(** A first file that exists but cannot be opened (no permission). *)
Theorem C51_unreadable_refuted : forall fs root f, fs root = Some f -> f_ok f = false -> 60 < f_size f -> open fs root = UB.
Proof. intros fs root f Q K P. destruct (open_unreadable fs root f Q K); [lia|assumption|lia]. Qed.
(** A missing file with a long name overflows the message buffer. *)
Theorem C51_long_name_refuted : forall fs root, fs root = None -> (991 < length root)%nat -> open fs root = UB.
Proof.
  intros fs root N L. unfold open.
  assert (family MAX_FILES fs root 0 = []) as ->.
  { rewrite (family_unique fs root (family MAX_FILES fs root 0) []); [reflexivity|apply family_family_of|].
    split; [cbn; lia|]. split; [intros [|k] f Q; discriminate|]. intros _. cbn. rewrite app_nil_r. exact N. }
  cbn [length Nat.eqb]. replace (length root + 33 <=? 1024)%nat with false by (symmetry; apply Nat.leb_gt; lia). reflexivity.
Qed.

Print Assumptions C35_reads.
Print Assumptions C35_split_independent.
Print Assumptions C35_skip.
Print Assumptions C36_seek.
Print Assumptions C36_read.
Print Assumptions C36_read_at.
Print Assumptions C36_skip.
Print Assumptions C37_word_size.
Print Assumptions C51_open_partial.
Print Assumptions C52_family.
Print Assumptions C52_missing.
