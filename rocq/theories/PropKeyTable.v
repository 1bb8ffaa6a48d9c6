(** * Properties C11, C12, C13 *)
From Coq Require Import Sorting.Sorted Sorting.Permutation.
From Verif Require Import CBase CBaseFacts SearchModel SearchSpec SearchProofs KeyTableModel KeyTableSpec KeyTableProofs.

(** C11: whenever parsing terminates normally, the keywords are the stable
    sort by name of the keywords of the file, each with exactly its cards. *)
Theorem C11_keywords_stable_sorted : forall blocks ks,
  key_file_parse_events (file_events blocks) = OK ks ->
  stable_sorted blocks (map as_block ks).
Proof.
  intros blocks ks E. pose proof (run_blocks blocks [] [] None stable_sorted_nil) as H.
  unfold key_file_parse_events in E. rewrite E in H. exact H.
Qed.

(** Nothing is lost or duplicated. *)
Theorem C11_keywords_permutation : forall blocks ks,
  key_file_parse_events (file_events blocks) = OK ks -> Permutation blocks (map as_block ks).
Proof. intros. apply stable_permutation, C11_keywords_stable_sorted. assumption. Qed.

(** It does terminate normally unless a name occurs a third time while it is
    the greatest name so far. *)
Theorem C11_keywords_defined_partial : forall blocks, tame blocks ->
  exists ks, key_file_parse_events (file_events blocks) = OK ks /\ stable_sorted blocks (map as_block ks).
Proof.
  intros blocks T. pose proof (run_blocks blocks [] [] None stable_sorted_nil) as H.
  unfold key_file_parse_events. destruct (key_run _ _) as [ks| |]; [|contradiction|contradiction].
  exists ks. split; [reflexivity|exact H].
Qed.

(** The missing part: a file with the same keyword three times and no keyword
    with a greater name reads behind the keyword array (key.c:101). *)
Theorem C11_third_duplicate_refuted : forall name c1 c2 c3,
  key_file_parse_events (file_events [(name, c1); (name, c2); (name, c3)]) = UB.
Proof.
  intros name c1 c2 c3. unfold key_file_parse_events.
  unfold file_events. cbn [map concat].
  set (r1 := block_events (name, c2) ++ block_events (name, c3) ++ []).
  set (k1 := kb (name, c1)). set (k2 := kb (name, c2)).
  rewrite (run_block [] None (name, c1) r1 0 (le_n _)) by reflexivity.
  assert (E1 : keyword_position [k1] name = OK 1).
  { unfold keyword_position, key_file_binary_search_insert, bsearch_insert. cbn. rewrite strcmp_refl. reflexivity. }
  unfold r1. cbn [firstn skipn app]. fold k1.
  rewrite (run_block [k1] (Some 0) (name, c2) (block_events (name, c3) ++ []) 1 (le_n _)) by exact E1.
  cbn [firstn skipn app]. fold k2.
  apply run_block_UB. cbn [fst].
  unfold keyword_position, key_file_binary_search_insert, bsearch_insert. cbn. rewrite strcmp_refl. cbn.
  rewrite strcmp_refl. cbn. reflexivity.
Qed.

Example C11_ex_tame : tame [(bs "NODE", [bs "1"]); (bs "PART", [bs "a"; bs "b"]); (bs "NODE", []); (bs "NODE", [bs "2"])].
Proof.
  intros pre b post E H.
  assert (Hin : bytes_lt (bs "NODE") (bs "PART")) by (right; exists [], 78%Z, (bs "ODE"), 80%Z, (bs "ART"); repeat split; lia).
  destruct pre as [|p1 [|p2 [|p3 [|p4 pre]]]]; simpl in E; injection E; intros; subst; try (cbn in H; lia).
  - exists (bs "PART", [bs "a"; bs "b"]). split; [right; left; reflexivity|exact Hin].
  - destruct pre; discriminate.
Qed.
Example C11_ex_run :
  key_file_parse_events (file_events [(bs "NODE", [bs "1"]); (bs "PART", [bs "a"; bs "b"]); (bs "NODE", []); (bs "NODE", [bs "2"])])
  = OK [kb (bs "NODE", [bs "1"]); kb (bs "NODE", []); kb (bs "NODE", [bs "2"]); kb (bs "PART", [bs "a"; bs "b"])].
Proof. reflexivity. Qed.

(** C12: the index-th keyword of a name. *)
Theorem C12_get_present : forall names name index,
  names_sorted names -> index < occurrences name names ->
  exists k, key_file_get names name index = OK (Some k) /\
    nth_error names k = Some name /\ occurrences name (firstn k names) = index.
Proof.
  intros names name index Hs Hi.
  destruct (sorted_run names name Hs) as (pre & run & post & E & B & Q & U).
  assert (Eo : occurrences name names = length run) by (rewrite E; apply occurrences_run; assumption).
  rewrite Eo in Hi. exists (length pre + index).
  rewrite (get_run names name pre run post index Hs E B Q U).
  destruct (Nat.ltb_spec index (length run)); [|lia]. split; [reflexivity|].
  pose proof (run_length pre run post) as L. split.
  - destruct (run_get pre run post name B Q U (length pre + index) ltac:(lia)) as (x & Ex & _ & Qx).
    rewrite E. apply aget_OK. rewrite Ex. f_equal. apply Qx. lia.
  - rewrite E. rewrite firstn_app, firstn_all2 by lia. replace (length pre + index - length pre) with index by lia.
    rewrite firstn_app. replace (index - length run) with 0 by lia. rewrite firstn_O.
    rewrite occurrences_run; auto; [rewrite firstn_length; lia| |constructor].
    unfold equal_to in *. rewrite Forall_forall in *. intros x Hx. apply Q.
    rewrite <- (firstn_skipn index run). apply in_or_app. left. assumption.
Qed.

Definition smaller (name : cstr) (names : list cstr) : nat :=
  length (filter (fun x => (strcmp x name <? 0)%Z) names).

Lemma smaller_run n pre run post : below n pre -> equal_to n run -> above n post ->
  smaller n (pre ++ run ++ post) = length pre.
Proof.
  intros B Q U. unfold smaller. rewrite !filter_app, !app_length.
  rewrite (filter_none _ run), (filter_none _ post).
  - simpl. rewrite Nat.add_0_r. induction B as [|x l Hx Hl IH]; [reflexivity|]. simpl.
    apply strcmp_lt_bytes in Hx. destruct (Z.ltb_spec (strcmp x n) 0); [simpl; congruence|lia].
  - intros x Hx. unfold above in U. rewrite Forall_forall in U. apply U, strcmp_lt_bytes in Hx.
    rewrite strcmp_antisym. lia.
  - intros x Hx. unfold equal_to in Q. rewrite Forall_forall in Q. apply Q in Hx. subst. rewrite strcmp_refl. reflexivity.
Qed.

Theorem C12_get_absent_partial : forall names name index,
  names_sorted names -> occurrences name names <= index ->
  ~ In name names \/ smaller name names + index <> length names ->
  key_file_get names name index = OK None.
Proof.
  intros names name index Hs Hi Hc.
  destruct (sorted_run names name Hs) as (pre & run & post & E & B & Q & U).
  assert (Eo : occurrences name names = length run) by (rewrite E; apply occurrences_run; assumption).
  rewrite (get_run names name pre run post index Hs E B Q U).
  destruct (Nat.ltb_spec index (length run)); [lia|].
  destruct (Nat.eqb_spec (length run) 0); [reflexivity|].
  destruct (Nat.eqb_spec index (length run + length post)); [|reflexivity]. exfalso.
  destruct Hc as [Hc|Hc].
  - apply Hc. rewrite E. destruct run as [|r0 run]; [simpl in *; lia|]. inversion Q; subst.
    apply in_or_app. right. left. reflexivity.
  - apply Hc. rewrite E, smaller_run, !app_length by assumption. lia.
Qed.

(** The missing part: asking for one more keyword than there are behind the
    first one of that name reads [keywords[num_keywords]]. *)
Theorem C12_get_absent_refuted : forall names name,
  names_sorted names -> In name names ->
  key_file_get names name (length names - smaller name names) = UB.
Proof.
  intros names name Hs Hin.
  destruct (sorted_run names name Hs) as (pre & run & post & E & B & Q & U).
  rewrite (get_run names name pre run post _ Hs E B Q U).
  assert (Hr : run <> []).
  { intros ->. rewrite E in Hin. apply in_app_or in Hin as [Hin|Hin].
    - unfold below in B. rewrite Forall_forall in B. apply B in Hin. eapply bytes_lt_irrefl; eassumption.
    - simpl in Hin. unfold above in U. rewrite Forall_forall in U. apply U in Hin. eapply bytes_lt_irrefl; eassumption. }
  assert (length run <> 0) by (destruct run; [congruence|discriminate]).
  assert (Ei : length names - smaller name names = length run + length post).
  { rewrite E, smaller_run, !app_length by assumption. lia. }
  rewrite Ei. destruct (Nat.ltb_spec (length run + length post) (length run)); [lia|].
  destruct (Nat.eqb_spec (length run) 0); [lia|]. rewrite Nat.eqb_refl. reflexivity.
Qed.

Example C12_ex : names_sorted [bs "A"; bs "B"; bs "B"; bs "C"] /\
  key_file_get [bs "A"; bs "B"; bs "B"; bs "C"] (bs "B") 1 = OK (Some 2) /\
  key_file_get [bs "A"; bs "B"; bs "B"; bs "C"] (bs "B") 2 = OK None /\
  key_file_get [bs "A"] (bs "A") 1 = UB.
Proof. split; [apply sortedb_sound; reflexivity|]. repeat split; reflexivity. Qed.

(** C13: the slice is exactly the run of the name. *)
Theorem C13_slice_partial : forall pre run post name,
  names_sorted (pre ++ run ++ post) ->
  ~ In name pre -> Forall (fun x => x = name) run -> ~ In name post -> run <> [] ->
  pre <> [] \/ length run = 1 ->
  key_file_get_slice (pre ++ run ++ post) name = OK (Some (length pre, length run)).
Proof.
  intros pre run post name Hs Hpre Q Hpost Hr Hc.
  assert (B : below name pre /\ above name post).
  { destruct run as [|r0 run]; [congruence|]. inversion Q; subst.
    clear - Hs Hpre Hpost. induction pre as [|p pre IH]; simpl in Hs; inversion Hs as [|? ? Hs' Hf]; subst.
    - split; [constructor|]. apply Forall_app in Hf as [_ Hf]. unfold above. rewrite Forall_forall in *.
      intros x Hx. destruct (Hf x Hx) as [->|]; [contradiction|assumption].
    - destruct IH as [I1 I2]; auto. { intros Hx. apply Hpre. right. assumption. }
      split; [|assumption]. constructor; [|assumption]. rewrite Forall_forall in Hf.
      destruct (Hf name ltac:(apply in_or_app; right; left; reflexivity)) as [->|]; [|assumption].
      exfalso. apply Hpre. left. reflexivity. }
  destruct B as [B U]. rewrite (slice_run _ name pre run post Hs eq_refl B Q U) by auto.
  destruct run; [congruence|reflexivity].
Qed.

Theorem C13_slice_absent : forall names name, names_sorted names -> ~ In name names ->
  key_file_get_slice names name = OK None.
Proof.
  intros names name Hs Hn.
  destruct (sorted_run names name Hs) as (pre & run & post & E & B & Q & U).
  assert (run = []) as ->.
  { destruct run as [|r0 run]; [reflexivity|]. exfalso. apply Hn. rewrite E. inversion Q; subst.
    apply in_or_app. right. left. reflexivity. }
  rewrite (slice_run _ name pre [] post Hs E B Q U) by auto. reflexivity.
Qed.

(** The missing part: if the run starts at the first element of the array and
    the search does not hit that element, the first keyword is left out. *)
Theorem C13_slice_first_refuted :
  names_sorted [bs "A"; bs "A"; bs "B"] /\
  key_file_get_slice [bs "A"; bs "A"; bs "B"] (bs "A") = OK (Some (1, 1)) /\
  key_file_get_slice [bs "A"; bs "A"; bs "A"] (bs "A") = OK (Some (1, 2)).
Proof. split; [apply sortedb_sound; reflexivity|]. split; reflexivity. Qed.

Example C13_ex : key_file_get_slice [bs "A"; bs "B"; bs "B"; bs "C"] (bs "B") = OK (Some (1, 2)).
Proof.
  apply (C13_slice_partial [bs "A"] [bs "B"; bs "B"] [bs "C"] (bs "B")).
  - apply sortedb_sound. reflexivity.
  - intros [|[]]; discriminate.
  - repeat constructor.
  - intros [|[]]; discriminate.
  - discriminate.
  - left. discriminate.
Qed.

Print Assumptions C11_keywords_stable_sorted.
Print Assumptions C11_keywords_permutation.
Print Assumptions C11_keywords_defined_partial.
Print Assumptions C12_get_present.
Print Assumptions C12_get_absent_partial.
Print Assumptions C13_slice_partial.
