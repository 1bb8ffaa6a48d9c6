(** * Properties C07, C08 *)
From Verif Require Import CBase CBaseFacts StringModel StringSpec StringProofs.

(** C07: after any sequence of appends the buffer holds the concatenation,
    NUL terminated, and is as large as the recorded capacity (every write is
    bounds checked by the model, so the [OK] says none left the buffer). *)
Theorem C07_builder_concatenates : forall ops,
  Forall op_ok ops ->
  exists sb, sb_run string_builder_new ops = OK sb /\
    length (sb_cells sb) = sb_cap sb /\
    sb_ptr sb = length (concat (map op_text ops)) /\
    (ops = [] /\ sb_buffer sb = None \/
     exists rest, sb_buffer sb = Some (concat (map op_text ops) ++ 0%Z :: rest)).
Proof.
  intros ops Ho.
  destruct (sb_run_spec ops string_builder_new [] ltac:(left; auto) Ho) as (sb & E & Hi).
  exists sb. split; [assumption|]. pose proof (sb_inv_winv _ _ Hi) as (W1 & W2 & _).
  simpl app in *. split; [assumption|]. split; [assumption|].
  destruct Hi as [(H1 & H2 & H3 & H4)|(m & H1 & H2 & H3 & rest & H4)].
  - left. split; [|assumption]. destruct ops as [|o ops]; [reflexivity|].
    exfalso. eapply sb_run_nonempty; [|exact E|exact H1]. discriminate.
  - right. exists rest. rewrite H1, H4. reflexivity.
Qed.

(** The C string a reader of the buffer sees, if no NUL was appended. *)
Theorem C07_builder_c_string : forall ops sb m,
  Forall op_ok ops -> Forall (fun b => b <> 0%Z) (concat (map op_text ops)) ->
  sb_run string_builder_new ops = OK sb -> fst (string_builder_move sb) = Some m ->
  cstring_at m = OK (concat (map op_text ops)) /\
  snd (string_builder_move sb) = string_builder_new.
Proof.
  intros ops sb m Ho Hn E Hm. split; [|reflexivity].
  destruct (C07_builder_concatenates ops Ho) as (sb' & E' & _ & _ & H).
  rewrite E in E'. injection E' as <-. simpl in Hm.
  destruct H as [[_ H]|[rest H]]; rewrite H in Hm; [discriminate|]. injection Hm as <-.
  apply cstring_at_app. assumption.
Qed.

Theorem C07_clone : forall s, is_cstr s -> string_clone s = OK s.
Proof. exact string_clone_ok. Qed.
Theorem C07_clone_len : forall mem l, l <= length mem ->
  string_clone_len mem l = OK (firstn l mem ++ [0%Z]).
Proof. exact string_clone_len_ok. Qed.

Example C07_ex : exists sb rest,
  sb_run string_builder_new [AppStr (bs "ab"); AppChar 99%Z; AppLen (bs "defg") 2; AppStr []] = OK sb /\
  sb_buffer sb = Some (bs "abcde" ++ 0%Z :: rest).
Proof. eexists _, _. split; reflexivity. Qed.

(** C08: an extra string is accessed like the contiguous memory it represents. *)
Theorem C08_get : forall e i, length (es_buffer e) = 82 ->
  extra_string_get e i = aget (es_buffer e ++ es_extra e) i.
Proof. exact es_get_mem. Qed.

Theorem C08_set : forall e i v e', length (es_buffer e) = 82 ->
  extra_string_set e i v = OK e' ->
  length (es_buffer e') = 82 /\
  aset (es_buffer e ++ es_extra e) i v = OK (es_buffer e' ++ es_extra e').
Proof.
  intros e i v e' H E. pose proof (es_set_mem e i v H) as S. rewrite E in S.
  fold (es_mem e). destruct (aset _ _ _) as [m| |]; try contradiction.
  destruct S as (<- & ? & _). split; [assumption|reflexivity].
Qed.

Theorem C08_set_defined : forall e i v, length (es_buffer e) = 82 ->
  i < length (es_buffer e ++ es_extra e) -> exists e', extra_string_set e i v = OK e'.
Proof.
  intros e i v H Hi. pose proof (es_set_mem e i v H) as S. unfold es_mem in S.
  rewrite (aset_lt (es_buffer e ++ es_extra e)) in S by assumption.
  destruct (extra_string_set e i v); try contradiction. eauto.
Qed.

Theorem C08_compare_partial : forall e s rhs,
  es_holds e s -> is_cstr rhs -> length rhs < 82 ->
  exists d, extra_string_compare e rhs = OK d /\ (d = 0%Z <-> s = rhs) /\
    (Forall (fun b => b < 128)%Z s -> Forall (fun b => b < 128)%Z rhs -> Z.sgn d = strcmp s rhs).
Proof. exact es_compare_spec. Qed.

(** Missing part of C08 for comparison: texts of 82 and more characters.  Two
    equal texts of that length: the function reads [extra[82]]. *)
Theorem C08_compare_long_refuted : forall s,
  is_cstr s -> length s = 82 ->
  extra_string_compare {| es_buffer := s; es_extra := [0%Z] |} s = UB.
Proof.
  intros s Hc Hl. unfold extra_string_compare.
  assert (Hs : es_holds {| es_buffer := s; es_extra := [0%Z] |} s).
  { repeat split; auto. exists []. reflexivity. }
  destruct (es_cmp_loop_spec 82 _ s s 0 Hs Hc eq_refl ltac:(lia) ltac:(lia) eq_refl)
    as (k & r & E & K1 & K2 & K3 & K4 & K5).
  unfold ESB. rewrite E. cbn [bind].
  destruct K5 as [(-> & ->)|[(Q1 & -> & Q2)|(Q1 & Q2 & Q3 & Q4 & ->)]]; [|lia|congruence].
  rewrite Nat.eqb_refl. cbn [es_extra]. rewrite aget_UB by (simpl; lia). reflexivity.
Qed.

Theorem C08_starts_with_partial : forall e s prefix,
  es_holds e s -> is_cstr prefix ->
  length prefix <= 82 \/ length prefix <= length s \/ length s < 82 ->
  exists b, extra_string_starts_with e prefix = OK b /\
    (b = true <-> exists t, s = prefix ++ t).
Proof.
  intros e s p Hs Hp Hl. destruct (es_starts_spec e s p Hs Hp) as (b & E & H).
  exists b. split; [assumption|]. rewrite H. split; [|auto].
  intros [?|(L & t & Ht)]; [assumption|]. exists [].
  rewrite app_nil_r. assert (length p = length s + length t) by (rewrite Ht, app_length; reflexivity).
  destruct t; [rewrite app_nil_r in Ht; congruence|]. simpl in *. lia.
Qed.

(** Missing part: a text of at least 82 characters that is a proper prefix of
    the "prefix" is reported as starting with it. *)
Theorem C08_starts_with_long_refuted : forall e s t,
  es_holds e s -> 82 <= length s -> is_cstr (s ++ t) ->
  extra_string_starts_with e (s ++ t) = OK true.
Proof.
  intros e s t Hs Hl Hp. destruct (es_starts_spec e s (s ++ t) Hs Hp) as (b & E & H).
  rewrite E. f_equal. apply H. right. eauto.
Qed.

Theorem C08_copy_partial : forall dst src s offset,
  es_holds src s -> length (es_buffer dst) = 82 -> offset <= length s ->
  (length s < 82 \/ offset + 81 <= length s) -> offset <= 82 ->
  exists e, extra_string_copy dst src (length s) offset = OK e /\ es_holds e (skipn offset s).
Proof. exact es_copy_ok. Qed.

(** Missing part: a source of 82 or more characters that becomes shorter than
    81 characters: the length of the second copy underflows.  Reached by the
    key file parser with a keyword line of 82 characters and one leading blank
    (offset 2). *)
Theorem C08_copy_underflow_refuted : forall dst src s offset,
  es_holds src s -> 82 <= length s -> length s < offset + 81 -> offset <= length s -> offset <> 0 ->
  extra_string_copy dst src (length s) offset = UB.
Proof. intros. apply es_copy_UB; assumption. Qed.

Theorem C08_copy_to_string : forall dst src s,
  es_holds src s -> length s < length dst ->
  exists d, extra_string_copy_to_string dst src (length s) = OK d /\
    length d = length dst /\ firstn (length s) d = s /\
    (82 <= length s -> nth (length s) d 1%Z = 0%Z).
Proof. exact es_copy_to_string_ok. Qed.

(** Non-vacuity: a 90 character text, split after 82. *)
Definition ex_long : list Z := repeat 65%Z 89 ++ [66%Z].
Definition ex_long_es : extra_string :=
  {| es_buffer := firstn 82 ex_long; es_extra := skipn 82 ex_long ++ [0%Z; 7%Z] |}.
Example C08_ex_holds : es_holds ex_long_es ex_long.
Proof.
  split; [reflexivity|]. split; [repeat constructor; lia|]. exists [7%Z]. reflexivity.
Qed.
Example C08_ex_copy :
  exists e, extra_string_copy {| es_buffer := repeat JUNK 82; es_extra := [] |} ex_long_es 90 3 = OK e
    /\ es_holds e (repeat 65%Z 86 ++ [66%Z]).
Proof. apply (C08_copy_partial _ _ _ 3 C08_ex_holds); simpl; lia. Qed.
Example C08_ex_underflow :
  exists e s, es_holds e s /\ length s = 82 /\ extra_string_copy e e 82 2 = UB.
Proof.
  exists {| es_buffer := repeat 65%Z 82; es_extra := [0%Z] |}, (repeat 65%Z 82).
  split; [|split; reflexivity]. split; [reflexivity|]. split; [repeat constructor; lia|]. exists []. reflexivity.
Qed.
Example C08_ex_starts :
  extra_string_starts_with ex_long_es (repeat 65%Z 89) = OK true /\
  extra_string_starts_with ex_long_es (repeat 65%Z 90) = OK false /\
  extra_string_compare ex_long_es (repeat 65%Z 80) = OK 1%Z.
Proof. repeat split; reflexivity. Qed.

Print Assumptions C07_builder_concatenates.
Print Assumptions C07_builder_c_string.
Print Assumptions C08_get.
Print Assumptions C08_set.
Print Assumptions C08_compare_partial.
Print Assumptions C08_starts_with_partial.
Print Assumptions C08_copy_partial.
Print Assumptions C08_copy_to_string.
