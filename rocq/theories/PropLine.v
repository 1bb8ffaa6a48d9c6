(** * Properties C09, C10 *)
From Verif Require Import CBase CBaseFacts StringModel LineModel LineSpec LineProofs.

(** Cells the C program never initialised are assumed not to contain a line
    feed by accident (see [C09_garbage_refuted]). *)
Definition quiet (stack : list Z) (fill : nat -> Z) : Prop :=
  length stack = 82 /\ Forall (fun c => c <> LF) stack /\ forall k, fill k <> LF.

(** C09/C10: for every file, every chunk size that does not divide the file
    size and every (quiet) garbage in memory, the lines delivered are exactly
    the lines of the file in order: NUL terminated text without carriage
    returns, its length, and the index of its first '$'. *)
Theorem C09_lines_partial : forall N fill file stack index fuel,
  0 < N -> quiet stack fill -> length file mod N <> 0 -> length file + 2 <= fuel ->
  exists out, read_lines N fill fuel (new_line_reader file stack index) = OK out /\
    Forall2 shows out (map clean (text_lines file)).
Proof.
  intros N fill file stack index fuel HN (Q1 & Q2 & Q3) Hm Hfu.
  destruct (read_lines_new N fill file stack index fuel HN Q3 Q1 Q2 Hfu) as (out & E & H).
  exists out. split; [exact E|]. destruct (Nat.eqb_spec (length file mod N) 0); [contradiction|exact H].
Qed.

(** The general case: if the chunk size divides the file size there is one
    line more if the file is empty or ends with a line feed. *)
Theorem C09_lines_any_size : forall N fill file stack index fuel,
  0 < N -> quiet stack fill -> length file + 2 <= fuel ->
  exists out, read_lines N fill fuel (new_line_reader file stack index) = OK out /\
    Forall2 shows out (map clean (if length file mod N =? 0 then pieces file else text_lines file)).
Proof.
  intros N fill file stack index fuel HN (Q1 & Q2 & Q3) Hfu.
  apply read_lines_new; assumption.
Qed.

(** Two chunk sizes that do not divide the file size deliver the same lines. *)
Theorem C09_chunk_independent_partial : forall N N' fill fill' file stack stack' index index' fuel out out',
  0 < N -> 0 < N' -> quiet stack fill -> quiet stack' fill' ->
  length file mod N <> 0 -> length file mod N' <> 0 -> length file + 2 <= fuel ->
  read_lines N fill fuel (new_line_reader file stack index) = OK out ->
  read_lines N' fill' fuel (new_line_reader file stack' index') = OK out' ->
  map (fun '(mem, len, com) => (firstn (len + 1) mem, len, com)) out =
  map (fun '(mem, len, com) => (firstn (len + 1) mem, len, com)) out'.
Proof.
  intros N N' fill fill' file stack stack' index index' fuel out out' HN HN' Q Q' Hm Hm' Hfu E E'.
  destruct (C09_lines_partial N fill file stack index fuel HN Q Hm Hfu) as (o & Eo & Ho).
  destruct (C09_lines_partial N' fill' file stack' index' fuel HN' Q' Hm' Hfu) as (o' & Eo' & Ho').
  assert (o = out) as -> by congruence. assert (o' = out') as -> by congruence. clear E E' Eo Eo'.
  revert Ho Ho'. generalize (map clean (text_lines file)). intros ls H. revert out'.
  induction H as [|v l vs ls Hv H IH]; intros out' H'; inversion H' as [|v' l' vs' ls' Hv' H'']; subst; [reflexivity|].
  cbn [map]. f_equal; [|apply IH; assumption].
  destruct v as [[m n] c], v' as [[m' n'] c'].
  destruct Hv as (-> & (r & ->) & ->), Hv' as (-> & (r' & ->) & ->).
  rewrite !firstn_app, !firstn_all2 by lia. replace (length l + 1 - length l) with 1 by lia. reflexivity.
Qed.

(** The missing part of C09: files whose size is a multiple of the chunk size
    (1 MiB) and that are empty or end with a line feed yield an additional
    empty line. *)
Theorem C09_multiple_refuted : forall N fill file stack index fuel,
  0 < N -> quiet stack fill -> length file mod N = 0 -> length file + 2 <= fuel ->
  (file = [] \/ exists t, file = t ++ [LF]) ->
  exists out, read_lines N fill fuel (new_line_reader file stack index) = OK out /\
    Forall2 shows out (map clean (text_lines file) ++ [[]]).
Proof.
  intros N fill file stack index fuel HN Q Hm Hfu Hfile.
  destruct (C09_lines_any_size N fill file stack index fuel HN Q Hfu) as (out & E & H).
  exists out. split; [exact E|]. rewrite Hm in H. cbn [Nat.eqb] in H.
  assert (L : pieces file = text_lines file ++ [[]]).
  { assert (Hl : last (pieces file) [] = []).
    { destruct Hfile as [->|[t ->]]; [reflexivity|]. clear.
      induction t as [|c t IH]; [reflexivity|]. cbn [app pieces].
      pose proof (pieces_nonempty (t ++ [LF])).
      destruct (c =? LF)%Z.
      - destruct (pieces (t ++ [LF])) eqn:Ep; [congruence|]. exact IH.
      - destruct t as [|d t]; [reflexivity|].
        destruct (pieces ((d :: t) ++ [LF])) as [|p [|p2 ps]] eqn:Ep; [congruence| |exact IH].
        exfalso. simpl in IH. subst p. cbn [app pieces] in Ep.
        destruct (d =? LF)%Z.
        + injection Ep as Ep. apply (pieces_nonempty (t ++ [LF]) Ep).
        + destruct (pieces (t ++ [LF])); discriminate. }
    unfold text_lines. destruct (list_eq_dec Z.eq_dec (last (pieces file) []) []) as [_|n]; [|congruence].
    pose proof (app_removelast_last [] (pieces_nonempty file)) as R. rewrite Hl in R. exact R. }
  rewrite L, map_app in H. exact H.
Qed.

(** Why [quiet] is needed: the test behind the inner loop (line.c:101) looks
    at a cell that was not written; if the garbage in it is a line feed the
    line is split at the chunk boundary. *)
Theorem C09_garbage_refuted : exists N fill file stack index out,
  length stack = 82 /\ length file mod N <> 0 /\
  read_lines N fill 100 (new_line_reader file stack index) = OK out /\
  map (fun '(mem, len, com) => firstn len mem) out = [bs "ab"; bs "c"] /\
  map clean (text_lines file) = [bs "abc"].
Proof.
  exists 2, (fun _ => 0%Z), (bs "abc"), (0 :: 0 :: 10 :: repeat 0 79)%Z, 0. eexists.
  split; [reflexivity|]. split; [discriminate|]. split; [vm_compute; reflexivity|]. split; vm_compute; reflexivity.
Qed.

(** C10: the reported comment position of every line is the index of its
    first '$' (also stated by [shows] in the theorems above). *)
Theorem C10_comment_position : forall N fill file stack index fuel out,
  0 < N -> quiet stack fill -> length file + 2 <= fuel ->
  read_lines N fill fuel (new_line_reader file stack index) = OK out ->
  Forall (fun '(mem, len, com) =>
    match com with
    | None => ~ In DOLLAR (firstn len mem)
    | Some k => k < len /\ nth k mem 0%Z = DOLLAR /\ ~ In DOLLAR (firstn k mem)
    end) out.
Proof.
  intros N fill file stack index fuel out HN Q Hfu E.
  destruct (C09_lines_any_size N fill file stack index fuel HN Q Hfu) as (o & Eo & Ho).
  assert (o = out) as -> by congruence. clear E Eo.
  revert Ho. generalize (map clean (if length file mod N =? 0 then pieces file else text_lines file)).
  intros ls H. induction H as [|v l vs ls Hv H IH]; constructor; [|exact IH].
  destruct v as [[m n] c]. destruct Hv as (-> & (r & ->) & ->). clear.
  rewrite firstn_app_exact.
  induction l as [|x l IH]; cbn [first_dollar]; [intros []|].
  destruct (Z.eqb_spec x DOLLAR) as [->|nx].
  - cbn. repeat split; [lia|intros []].
  - destruct (first_dollar l) as [k|]; cbn [option_map].
    + destruct IH as (I1 & I2 & I3). cbn. split; [lia|]. split; [exact I2|].
      intros [|]; [congruence|]. apply I3. assumption.
    + intros [|]; [congruence|]. apply IH. assumption.
Qed.

Example C09_ex : exists out,
  read_lines 3 (fun _ => 0%Z) 40 (new_line_reader (bs "*A" ++ [CR; LF] ++ bs "1, 2 $ x$" ++ [LF; LF] ++ bs "end") (repeat 0%Z 82) 7) = OK out /\
  map (fun '(mem, len, com) => (firstn len mem, com)) out =
    [(bs "*A", None); (bs "1, 2 $ x$", Some 5); ([], None); (bs "end", None)].
Proof. eexists. split; vm_compute; reflexivity. Qed.
Example C09_ex_quiet : quiet (repeat 0%Z 82) (fun _ => 0%Z).
Proof. split; [reflexivity|]. split; [repeat constructor; discriminate|discriminate]. Qed.

Print Assumptions C09_lines_partial.
Print Assumptions C09_lines_any_size.
Print Assumptions C09_chunk_independent_partial.
Print Assumptions C09_multiple_refuted.
Print Assumptions C10_comment_position.
