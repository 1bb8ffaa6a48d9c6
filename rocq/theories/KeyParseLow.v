(** * The parser's low level steps: line memory, names, builders *)
From Verif Require Import CBase CBaseFacts StringModel StringSpec StringProofs LineModel LineSpec LineProofs
  PathModel KeyTableModel KeyTableSpec CardSpec KeyParseModel KeyParseSpec.

(** ** one line from the reader *)
Lemma read_line_next N fill (HN : 0 < N) (Hf : forall k, fill k <> LF) a st w :
  mem_holds (lr_line st) w -> stream_ok N (a = true) st ->
  (expected a st = [] /\ exists st', read_line N fill st = OK (false, st')) \/
  (exists l ls st', expected a st = l :: ls /\ read_line N fill st = OK (true, st') /\
     mem_holds (lr_line st') (clean l) /\ shows (seen st') (clean l) /\
     stream_ok N (a = true) st' /\ expected a st' = ls /\
     (length (remaining st') < length (remaining st) \/ (remaining st' = [] /\ expected a st' = []))).
Proof.
  intros Hm Hs. unfold read_line. cbn [lr_eof lr_chunk lr_index lr_rest].
  set (st0 := {| lr_rest := lr_rest st |}).
  destruct (lr_eof st && (length (lr_chunk st) <=? lr_index st)) eqn:E0.
  { left. apply andb_true_iff in E0 as [E1 E2].
    split; [|eauto].
    unfold expected. rewrite E1, andb_false_r. destruct Hs as [Hs _]. destruct (Hs E1) as [Hr _].
    unfold remaining. rewrite Hr, skipn_all2 by lia. reflexivity. }
  right.
  destruct (rl_outer_spec N fill HN Hf (a = true) (length (lr_rest st) + 3) st0 []) as (st' & E & S' & D).
  { unfold reading, st0; cbn. repeat split; auto; [apply (mem_holds_nil _ _ Hm)|apply (mem_holds_nil _ _ Hm)]. }
  { exact Hs. }
  { unfold st0; cbn [lr_rest lr_chunk lr_index]. lia. }
  rewrite E. cbn [bind].
  assert (R0 : remaining st0 = remaining st) by reflexivity.
  destruct D as [(l & b & D1 & D2 & D3 & D4 & D5)|(D1 & D2 & D3 & D4 & D5)].
  - destruct D4 as [D4a D4b]. simpl app in *. rewrite R0 in D1.
    exists l, (expected a st'), st'. split; [|split; [reflexivity|]].
    + unfold expected. rewrite D1, D3. destruct a; cbn [andb].
      * destruct (lr_eof st) eqn:Ee; cbn [negb].
        -- exfalso. destruct Hs as [Hs _]. destruct (Hs Ee) as [H1 H2]. unfold remaining in D1.
           rewrite H1, (H2 eq_refl), skipn_nil in D1. destruct l; discriminate.
        -- rewrite (D5 eq_refl eq_refl). cbn [negb]. apply pieces_app. assumption.
      * apply text_lines_app. assumption.
    + split; [exact D4a|]. split; [exact D4b|]. split; [exact S'|]. split; [reflexivity|].
      left. rewrite D3, D1, app_length. cbn [length]. lia.
  - destruct D5 as [D5a D5b]. simpl app in *. rewrite R0 in *.
    assert (Ee : expected a st' = []).
    { unfold expected. rewrite D3, andb_false_r, D2. reflexivity. }
    exists (remaining st), [], st'. split; [|split; [reflexivity|]].
    + unfold expected. destruct a; cbn [andb].
      * destruct (lr_eof st) eqn:Ee'; cbn [negb].
        -- exfalso. destruct Hs as [Hs _]. destruct (Hs Ee') as [H1 H2].
           rewrite (H2 eq_refl) in E0. cbn in E0. discriminate.
        -- apply pieces_noLF. assumption.
      * assert (Hne : remaining st <> []).
        { intros Hz. unfold remaining in Hz. apply app_eq_nil in Hz as [Z1 Z2].
          assert (Hle : length (lr_chunk st) <= lr_index st).
          { assert (length (skipn (lr_index st) (lr_chunk st)) = 0) by (rewrite Z1; reflexivity).
            rewrite skipn_length in H. lia. }
          destruct (Nat.leb_spec (length (lr_chunk st)) (lr_index st)); [|lia].
          rewrite andb_true_r in E0. destruct Hs as [_ Hs]. specialize (Hs E0).
          destruct Hs as [_ Hs]. rewrite Z2 in Hs. discriminate Hs. exists 0. reflexivity. }
        apply text_lines_noLF; assumption.
    + split; [exact D5a|]. split; [exact D5b|]. split; [exact S'|]. split; [exact Ee|].
      right. split; assumption.
Qed.

(** ** the line after the comment was cut off *)
Definition masked (l : list Z) : list Z :=
  match first_dollar l with
  | Some k => firstn k l ++ NUL :: skipn (S k) l
  | None => l
  end.

Lemma masked_length l : length (masked l) = length l.
Proof.
  unfold masked. destruct (first_dollar l) as [k|] eqn:E; [|reflexivity].
  assert (k < length l).
  { revert k E; induction l as [|c l IH]; intros k E; simpl in E; [discriminate|].
    destruct (c =? DOLLAR)%Z; [injection E as <-; simpl; lia|].
    destruct (first_dollar l) as [j|]; [|discriminate]. injection E as <-.
    specialize (IH j eq_refl). simpl; lia. }
  rewrite app_length. cbn [length]. rewrite firstn_length, skipn_length. lia.
Qed.

Lemma text_dollar l : match first_dollar l with
  | Some k => text l = firstn k l /\ k < length l
  | None => text l = l end.
Proof.
  induction l as [|c l IH]; simpl; [reflexivity|].
  destruct (c =? DOLLAR)%Z; [simpl; split; [reflexivity|lia]|].
  destruct (first_dollar l) as [k|]; simpl.
  - destruct IH as [-> ?]. split; [reflexivity|lia].
  - rewrite IH. reflexivity.
Qed.

Lemma masked_text l : exists u, masked l = text l ++ u /\ (u = [] \/ exists v, u = NUL :: v).
Proof.
  unfold masked. pose proof (text_dollar l) as H. destruct (first_dollar l) as [k|].
  - destruct H as [-> _]. eexists; split; [reflexivity|]. right. eauto.
  - rewrite H. exists []. rewrite app_nil_r. auto.
Qed.

Lemma no_dollar_masked l : ~ In DOLLAR l -> masked l = l /\ text l = l.
Proof.
  intros H. unfold masked. pose proof (text_dollar l) as T.
  assert (E : first_dollar l = None).
  { clear T. induction l as [|c l IH]; [reflexivity|]. simpl. destruct (Z.eqb_spec c DOLLAR) as [->|].
    - exfalso. apply H. left. reflexivity.
    - rewrite IH; [reflexivity|]. intros X. apply H. right. exact X. }
  rewrite E in *. auto.
Qed.

Lemma text_prefix l : exists u, l = text l ++ u.
Proof.
  pose proof (text_dollar l) as T. destruct (first_dollar l) as [k|].
  - destruct T as [-> _]. exists (skipn k l). symmetry. apply firstn_skipn.
  - exists []. rewrite T, app_nil_r. reflexivity.
Qed.

Lemma text_cstr l : is_cstr l -> is_cstr (text l).
Proof. intros H. destruct (text_prefix l) as [u E]. rewrite E in H. apply is_cstr_app in H. tauto. Qed.

(** line memory shows the (masked) line *)
Definition line_mem (e : extra_string) (l : list Z) : Prop :=
  length (es_buffer e) = 82 /\ exists rest, es_mem e = masked l ++ NUL :: rest.

Lemma line_mem_text e l : line_mem e l -> length (es_buffer e) = 82 /\ exists rest, es_mem e = text l ++ NUL :: rest.
Proof.
  intros (H1 & rest & H2). split; [assumption|]. destruct (masked_text l) as (u & E & [->|[v ->]]).
  - rewrite app_nil_r in E. rewrite H2, E. eauto.
  - rewrite H2, E, <- app_assoc. cbn [app]. eauto.
Qed.

Lemma es_get_at e a x r : length (es_buffer e) = 82 -> es_mem e = a ++ x :: r ->
  extra_string_get e (length a) = OK x.
Proof.
  intros H E. rewrite es_get_mem by assumption. rewrite E. unfold aget.
  rewrite nth_error_app2, Nat.sub_diag by lia. reflexivity.
Qed.

Lemma es_blanks_spec e : length (es_buffer e) = 82 -> forall b fuel a c r,
  es_mem e = a ++ b ++ c :: r -> Forall (fun x => x = SPACE) b -> c <> SPACE -> length b < fuel ->
  es_blanks fuel e (length a) = OK (length a + length b).
Proof.
  intros Hb. induction b as [|x b IH]; intros fuel a c r E F Hc Hl; (destruct fuel as [|fuel]; [simpl in Hl; lia|]); cbn [es_blanks].
  - cbn [app] in E. rewrite (es_get_at _ _ _ _ Hb E). cbn [bind].
    destruct (Z.eqb_spec c SPACE); [contradiction|]. rewrite Nat.add_0_r. reflexivity.
  - cbn [app] in E. rewrite (es_get_at _ _ _ _ Hb E). cbn [bind]. inversion F; subst. rewrite Z.eqb_refl.
    replace (length a + 1) with (length (a ++ [SPACE])) by (rewrite app_length; reflexivity).
    rewrite (IH fuel (a ++ [SPACE]) c r); [|rewrite <- app_assoc; exact E|assumption|assumption|simpl in Hl; lia].
    rewrite app_length. cbn [length]. f_equal. lia.
Qed.

Lemma es_word_spec e : length (es_buffer e) = 82 -> forall b fuel a c r,
  es_mem e = a ++ b ++ c :: r -> Forall (fun x => x <> SPACE /\ x <> NUL) b -> c = SPACE \/ c = NUL -> length b < fuel ->
  es_word fuel e (length a) = OK (length a + length b).
Proof.
  intros Hb. induction b as [|x b IH]; intros fuel a c r E F Hc Hl; (destruct fuel as [|fuel]; [simpl in Hl; lia|]); cbn [es_word].
  - cbn [app] in E. rewrite (es_get_at _ _ _ _ Hb E). cbn [bind].
    replace ((c =? SPACE)%Z || (c =? NUL)%Z) with true by (destruct Hc as [-> | ->]; reflexivity).
    rewrite Nat.add_0_r. reflexivity.
  - cbn [app] in E. rewrite (es_get_at _ _ _ _ Hb E). cbn [bind]. inversion F as [|? ? [F1 F2] F3]; subst.
    destruct (Z.eqb_spec x SPACE); [contradiction|]. destruct (Z.eqb_spec x NUL); [contradiction|]. cbn [orb].
    replace (length a + 1) with (length (a ++ [x])) by (rewrite app_length; reflexivity).
    rewrite (IH fuel (a ++ [x]) c r); [|rewrite <- app_assoc; exact E|assumption|assumption|simpl in Hl; lia].
    rewrite app_length. cbn [length]. f_equal. lia.
Qed.

Lemma es_size_mem e : es_size e = length (es_mem e).
Proof. unfold es_size, es_mem. rewrite app_length. reflexivity. Qed.

(** ** copying with an offset, on memory *)
Lemma es_copy_mem dst src len offset :
  length (es_buffer src) = 82 -> length (es_buffer dst) = 82 -> offset <= len -> len < length (es_mem src) ->
  (len < 82 \/ offset + 81 <= len) -> offset <= 82 ->
  exists e r, extra_string_copy dst src len offset = OK e /\ length (es_buffer e) = 82 /\
    es_mem e = firstn (len + 1 - offset) (skipn offset (es_mem src)) ++ r.
Proof.
  intros Hb Hd Ho Hm Hl Ho82. unfold extra_string_copy, memcpy_diff, ESB.
  destruct (Nat.ltb_spec 82 offset); [lia|].
  rewrite memcpy_ok by lia. cbn [bind].
  assert (E0 : firstn 0 (es_buffer dst) ++ firstn (82 - offset) (skipn offset (es_buffer src)) ++ skipn (0 + (82 - offset)) (es_buffer dst)
     = skipn offset (es_buffer src) ++ skipn (82 - offset) (es_buffer dst)).
  { cbn [firstn app Nat.add]. rewrite (firstn_all2 (n := 82 - offset)) by (rewrite skipn_length; lia). reflexivity. }
  rewrite E0; clear E0.
  assert (Lb : length (skipn offset (es_buffer src) ++ skipn (82 - offset) (es_buffer dst)) = 82)
    by (rewrite app_length, !skipn_length; lia).
  assert (Lm : length (es_mem src) = 82 + length (es_extra src)) by (unfold es_mem; rewrite app_length; lia).
  assert (Esk : skipn offset (es_mem src) = skipn offset (es_buffer src) ++ es_extra src).
  { unfold es_mem. rewrite skipn_app, Hb. replace (offset - 82) with 0 by lia. reflexivity. }
  destruct (Nat.leb_spec 82 len) as [G|G].
  - destruct Hl as [|Hl]; [lia|].
    assert (Ef : firstn (len + 1 - offset) (skipn offset (es_mem src)) =
       skipn offset (es_buffer src) ++ firstn (len - 82 + 1) (es_extra src)).
    { rewrite Esk, firstn_app, skipn_length, Hb, (firstn_all2 (n := len + 1 - offset)) by (rewrite skipn_length; lia).
      do 2 f_equal. lia. }
    destruct (Nat.eqb_spec offset 0) as [->|Hz]; cbn [negb].
    + rewrite memcpy_ok by (rewrite ?realloc_length; lia). cbn [bind].
      eexists _, _; split; [reflexivity|]. cbn [es_buffer es_extra]. split; [exact Lb|].
      unfold es_mem at 1. cbn [es_buffer es_extra]. rewrite Ef.
      cbn [skipn firstn app Nat.add].
      rewrite (skipn_all2 (es_buffer dst)) by lia.
      rewrite skipn_all2 by (rewrite realloc_length; lia).
      rewrite !app_nil_r. reflexivity.
    + rewrite memcpy_ok by lia. cbn [bind].
      destruct (Nat.ltb_spec (len - 82 + 1) offset); [lia|].
      rewrite memcpy_ok by (rewrite ?realloc_length; lia). cbn [bind].
      eexists _, _; split; [reflexivity|]. cbn [es_buffer es_extra].
      replace (82 - offset + offset) with 82 by lia.
      rewrite (skipn_all2 (n := 82)) by lia. rewrite app_nil_r. cbn [skipn firstn app].
      assert (Ef2 : firstn (82 - offset) (skipn offset (es_buffer src) ++ skipn (82 - offset) (es_buffer dst)) = skipn offset (es_buffer src)).
      { rewrite firstn_app, skipn_length, Hb, Nat.sub_diag. cbn [firstn]. rewrite app_nil_r. apply firstn_all2. rewrite skipn_length. lia. }
      rewrite Ef2. split; [rewrite app_length, skipn_length, firstn_length; lia|].
      unfold es_mem at 1. cbn [es_buffer es_extra]. rewrite Ef, <- !app_assoc. f_equal.
      set (R := skipn _ (realloc _ _)). rewrite app_assoc. f_equal.
      rewrite <- (firstn_skipn offset (firstn (len - 82 + 1) (es_extra src))).
      rewrite firstn_firstn, Nat.min_l by lia. f_equal.
      rewrite firstn_firstn_skipn. do 2 f_equal. lia.
  - eexists _, _; split; [reflexivity|]. cbn [es_buffer es_extra]. split; [exact Lb|].
    unfold es_mem at 1. cbn [es_buffer es_extra].
    assert (Ef : firstn (len + 1 - offset) (skipn offset (es_mem src)) = firstn (len + 1 - offset) (skipn offset (es_buffer src))).
    { rewrite Esk, firstn_app, skipn_length, Hb. replace (len + 1 - offset - (82 - offset)) with 0 by lia. cbn [firstn]. apply app_nil_r. }
    rewrite Ef. rewrite <- (firstn_skipn (len + 1 - offset) (skipn offset (es_buffer src))) at 1.
    rewrite <- !app_assoc. reflexivity.
Qed.

(** ** the name of the current keyword *)
Lemma callback_name_spec st n : es_holds (p_name st) n -> p_klen st = length n -> callback_name st = OK n.
Proof.
  intros (Hb & Hc & rest & Hm) Hk. unfold callback_name, ESB. rewrite Hk.
  assert (Lm : length (es_mem (p_name st)) = 82 + length (es_extra (p_name st))) by (unfold es_mem; rewrite app_length; lia).
  assert (Ln : length (es_mem (p_name st)) = length n + 1 + length rest) by (rewrite Hm, app_length; cbn [length]; lia).
  destruct (Nat.ltb_spec (length n) 82) as [G|G].
  - assert (Eb : exists r, es_buffer (p_name st) = n ++ 0%Z :: r).
    { exists (firstn (81 - length n) rest).
      assert (E : es_buffer (p_name st) = firstn 82 (es_mem (p_name st))).
      { unfold es_mem. rewrite firstn_app, Hb, firstn_all2 by lia. cbn [Nat.sub firstn]. rewrite app_nil_r. reflexivity. }
      rewrite E, Hm, firstn_app, firstn_all2 by lia.
      replace (82 - length n) with (S (81 - length n)) by lia. reflexivity. }
    destruct Eb as [r ->]. apply cstring_at_app. apply is_cstr_nonzero. assumption.
  - unfold extra_string_copy_to_string, malloc, ESB. destruct (Nat.ltb_spec (length n) 82); [lia|].
    rewrite memcpy_ok by (rewrite ?repeat_length; lia). cbn [bind].
    set (d := firstn 0 _ ++ _).
    assert (Ld : length d = length n + 1).
    { unfold d. rewrite !app_length, firstn_length, !firstn_length, !skipn_length, repeat_length. lia. }
    rewrite memcpy_ok by (rewrite ?Ld; lia). cbn [bind].
    assert (Ed : firstn 82 d ++ firstn (length n - 82 + 1) (skipn 0 (es_extra (p_name st))) ++ skipn (82 + (length n - 82 + 1)) d = n ++ [0%Z]).
    { rewrite (skipn_all2 (n := 82 + (length n - 82 + 1))) by (rewrite Ld; lia). rewrite app_nil_r, skipn_O.
      assert (E82 : firstn 82 d = es_buffer (p_name st)).
      { unfold d. rewrite firstn_O, skipn_O. cbn [app]. rewrite (firstn_all2 (n := 82) (es_buffer (p_name st))) by lia.
        rewrite <- Hb at 1. apply firstn_app_exact. }
      rewrite E82.
      assert (E : firstn (length n + 1) (es_mem (p_name st)) = n ++ [0%Z]).
      { rewrite Hm. rewrite firstn_app, firstn_all2 by lia. replace (length n + 1 - length n) with 1 by lia. reflexivity. }
      rewrite <- E. unfold es_mem. rewrite firstn_app, (firstn_all2 (n := length n + 1)) by lia. do 2 f_equal. lia. }
    rewrite Ed. rewrite aset_at. cbn [bind]. apply (cstring_at_app n []). apply is_cstr_nonzero. assumption.
Qed.

Lemma is_name_spec st n s : es_holds (p_name st) n -> is_cstr (bs s) -> length (bs s) < 82 ->
  is_name st s = OK (same n (bs s)).
Proof.
  intros H Hs Hl. unfold is_name. destruct (es_compare_spec _ _ _ H Hs Hl) as (d & -> & E & _). cbn [bind].
  f_equal. unfold same. destruct (list_eq_dec Z.eq_dec n (bs s)) as [e|e].
  - apply E in e. rewrite e. reflexivity.
  - destruct (Z.eqb_spec d 0) as [e'|]; [|reflexivity]. apply E in e'. contradiction.
Qed.

Fixpoint prefixb (p n : list Z) : bool :=
  match p, n with
  | [], _ => true
  | x :: p', y :: n' => (x =? y)%Z && prefixb p' n'
  | _, _ => false
  end.
Lemma prefixb_starts p n : prefixb p n = true <-> starts p n.
Proof.
  revert n; induction p as [|x p IH]; intros n; cbn [prefixb].
  - split; [intros _; exists n; reflexivity|reflexivity].
  - destruct n as [|y n].
    + split; [discriminate|]. intros [t H]. discriminate.
    + rewrite andb_true_iff, Z.eqb_eq, IH. split.
      * intros [-> [t ->]]. exists t. reflexivity.
      * intros [t H]. injection H as -> ->. split; [reflexivity|exists t; reflexivity].
Qed.

Lemma starts_with_spec e n p : es_holds e n -> is_cstr p -> length p < 82 ->
  extra_string_starts_with e p = OK (prefixb p n).
Proof.
  intros H Hp Hl. destruct (es_starts_spec e n p H Hp) as (b & -> & E). f_equal.
  destruct (prefixb p n) eqn:P.
  - apply E. left. apply prefixb_starts in P. exact P.
  - destruct b; [|reflexivity]. exfalso. assert (X : true = true) by reflexivity. apply E in X as [X|[X [t ->]]].
    + apply prefixb_starts in X. congruence.
    + rewrite app_length in Hl. lia.
Qed.

(** ** the memory of a card *)
Lemma card_mem_spec e l : line_mem e l ->
  exists r, (if length l <? ESB then OK (es_buffer e)
    else do b <- extra_string_copy_to_string (malloc (length l + 1)) e (length l); aset b (length l) NUL)
    = OK (masked l ++ NUL :: r).
Proof.
  intros (Hb & rest & Hm). unfold ESB.
  assert (Lm : length (es_mem e) = 82 + length (es_extra e)) by (unfold es_mem; rewrite app_length; lia).
  pose proof (masked_length l) as ML.
  assert (Ln : length (es_mem e) = length l + 1 + length rest) by (rewrite Hm, app_length; cbn [length]; lia).
  destruct (Nat.ltb_spec (length l) 82) as [G|G].
  - exists (firstn (81 - length l) rest). f_equal.
    assert (E : es_buffer e = firstn 82 (es_mem e)).
    { unfold es_mem. rewrite firstn_app, Hb, firstn_all2 by lia. cbn [Nat.sub firstn]. rewrite app_nil_r. reflexivity. }
    rewrite E, Hm, firstn_app, firstn_all2 by lia. rewrite ML.
    replace (82 - length l) with (S (81 - length l)) by lia. reflexivity.
  - exists []. unfold extra_string_copy_to_string, malloc, ESB. destruct (Nat.ltb_spec (length l) 82); [lia|].
    rewrite memcpy_ok by (rewrite ?repeat_length; lia). cbn [bind].
    set (d := firstn 0 _ ++ _).
    assert (Ld : length d = length l + 1).
    { unfold d. rewrite !app_length, firstn_length, !firstn_length, !skipn_length, repeat_length. lia. }
    rewrite memcpy_ok by (rewrite ?Ld; lia). cbn [bind].
    assert (Ed : firstn 82 d ++ firstn (length l - 82 + 1) (skipn 0 (es_extra e)) ++ skipn (82 + (length l - 82 + 1)) d = masked l ++ [0%Z]).
    { rewrite (skipn_all2 (n := 82 + (length l - 82 + 1))) by (rewrite Ld; lia). rewrite app_nil_r, skipn_O.
      assert (E82 : firstn 82 d = es_buffer e).
      { unfold d. rewrite firstn_O, skipn_O. cbn [app]. rewrite (firstn_all2 (n := 82) (es_buffer e)) by lia.
        rewrite <- Hb at 1. apply firstn_app_exact. }
      rewrite E82.
      assert (E : firstn (length l + 1) (es_mem e) = masked l ++ [0%Z]).
      { rewrite Hm. rewrite firstn_app, firstn_all2 by lia. rewrite ML. replace (length l + 1 - length l) with 1 by lia. reflexivity. }
      rewrite <- E. unfold es_mem. rewrite firstn_app, (firstn_all2 (n := length l + 1)) by lia. do 2 f_equal. lia. }
    rewrite Ed. rewrite <- ML, aset_at. reflexivity.
Qed.

(** ** the builder for file names *)

(** removing trailing blanks *)
Fixpoint trim_right (l : list Z) : list Z :=
  match l with
  | [] => []
  | c :: t => match trim_right t with
              | [] => if (c =? SPACE)%Z then [] else [c]
              | u => c :: u
              end
  end.

Definition ends_plus (l : list Z) : bool :=
  match rev l with
  | c1 :: c2 :: _ => (c2 =? SPACE)%Z && (c1 =? PLUS)%Z
  | _ => false
  end.

Definition amulti (acc : option (list Z)) (l : list Z) : option (list Z + list Z) :=
  let w := match acc with None => drop_blanks l | Some a => a ++ l end in
  match acc, w with
  | None, [] => Some (inr [])
  | _, _ =>
    if length w <? 2 then None
    else if ends_plus w then Some (inl (firstn (length w - 2) w))
    else Some (inr (trim_right w))
  end.

Definition multi_rep (m : string_builder) (acc : option (list Z)) : Prop :=
  match acc with
  | None => m = string_builder_new
  | Some w => sb_winv m w /\ sb_cap m <> 0 /\ (exists c t, w = c :: t /\ c <> SPACE) /\ sb_buffer m <> None
  end.

Lemma drop_blanks_split l : exists b, l = b ++ drop_blanks l /\ Forall (fun x => x = SPACE) b /\
  (drop_blanks l = [] \/ exists c t, drop_blanks l = c :: t /\ c <> SPACE).
Proof.
  induction l as [|c l (b & E & F & D)]; cbn [drop_blanks].
  - exists []. auto.
  - destruct (Z.eqb_spec c SPACE) as [->|n].
    + exists (SPACE :: b). cbn [app]. rewrite <- E. auto.
    + exists []. cbn [app]. split; [reflexivity|]. split; [constructor|]. right. eauto.
Qed.

Lemma multi_blanks_spec card : forall b n a t r, card = a ++ b ++ t ++ r -> Forall (fun x => x = SPACE) b ->
  n = length (b ++ t) -> (t = [] \/ exists c u, t = c :: u /\ c <> SPACE) ->
  multi_blanks n card (length a) = OK (length a + length b).
Proof.
  induction b as [|x b IH]; intros n a t r E F Hn Ht.
  - cbn [app] in Hn. destruct Ht as [->|(c & u & -> & Hc)].
    + subst n. cbn. rewrite Nat.add_0_r. reflexivity.
    + subst n. cbn [length multi_blanks]. cbn [app] in E.
      unfold aget. rewrite E, nth_error_app2, Nat.sub_diag by lia. cbn [nth_error bind].
      destruct (Z.eqb_spec c SPACE); [contradiction|]. rewrite Nat.add_0_r. reflexivity.
  - subst n. cbn [app length multi_blanks]. cbn [app] in E.
    unfold aget. rewrite E, nth_error_app2, Nat.sub_diag by lia. cbn [nth_error bind].
    inversion F; subst. rewrite Z.eqb_refl.
    replace (length a + 1) with (length (a ++ [SPACE])) by (rewrite app_length; reflexivity).
    rewrite (IH _ (a ++ [SPACE]) t r); [|rewrite <- app_assoc; reflexivity|assumption|reflexivity|assumption].
    rewrite app_length. cbn [length]. f_equal. lia.
Qed.

Lemma trim_right_snoc w c : trim_right (w ++ [c]) = if (c =? SPACE)%Z then trim_right w else w ++ [c].
Proof.
  induction w as [|x w IH]; cbn [app trim_right].
  - reflexivity.
  - rewrite IH. destruct (c =? SPACE)%Z; [reflexivity|].
    destruct w; cbn [app]; reflexivity.
Qed.

Lemma multi_trim_spec w : forall rest, trim_right w <> [] ->
  multi_trim (w ++ rest) (length w) = OK (length (trim_right w)).
Proof.
  induction w as [|c w IH] using rev_ind; intros rest H; [contradiction|].
  rewrite trim_right_snoc in *. rewrite app_length. cbn [length]. rewrite Nat.add_1_r. cbn [multi_trim].
  unfold aget. rewrite <- app_assoc. rewrite nth_error_app2, Nat.sub_diag by lia. cbn [app nth_error bind].
  destruct (c =? SPACE)%Z.
  - apply IH. assumption.
  - f_equal. rewrite app_length. cbn. lia.
Qed.

Lemma trim_right_prefix w : exists b, w = trim_right w ++ b /\ Forall (fun x => x = SPACE) b.
Proof.
  induction w as [|c w (b & E & F)] using rev_ind; [exists []; auto|].
  rewrite trim_right_snoc. destruct (Z.eqb_spec c SPACE) as [->|n].
  - exists (b ++ [SPACE]). rewrite app_assoc, <- E. split; [reflexivity|]. apply Forall_app. auto.
  - exists []. rewrite app_nil_r. auto.
Qed.

Lemma trim_right_nonblank c t : c <> SPACE -> trim_right (c :: t) <> [].
Proof.
  intros H. cbn [trim_right]. destruct (trim_right t); [|discriminate].
  destruct (Z.eqb_spec c SPACE); [contradiction|discriminate].
Qed.

Lemma ends_plus_spec w : ends_plus w = true <-> exists p, w = p ++ [SPACE; PLUS].
Proof.
  unfold ends_plus. split.
  - destruct (rev w) as [|c1 [|c2 r]] eqn:E; try discriminate. intros H.
    apply andb_true_iff in H as [H1 H2]. apply Z.eqb_eq in H1, H2. subst.
    exists (rev r). rewrite <- (rev_involutive w), E. cbn [rev]. rewrite <- app_assoc. reflexivity.
  - intros [p ->]. rewrite rev_app_distr. reflexivity.
Qed.

Lemma ends_plus_cells w rest : 2 <= length w ->
  exists c2 c1, aget (w ++ rest) (length w - 2) = OK c2 /\ aget (w ++ rest) (length w - 1) = OK c1 /\
    ends_plus w = (c2 =? SPACE)%Z && (c1 =? PLUS)%Z.
Proof.
  intros H. unfold ends_plus.
  destruct (rev w) as [|c1 [|c2 r]] eqn:E.
  - apply (f_equal (@length Z)) in E. rewrite rev_length in E. simpl in E. lia.
  - apply (f_equal (@length Z)) in E. rewrite rev_length in E. simpl in E. lia.
  - exists c2, c1. assert (Ew : w = rev r ++ [c2; c1]).
    { rewrite <- (rev_involutive w), E. cbn [rev]. rewrite <- app_assoc. reflexivity. }
    rewrite Ew, app_length. cbn [length]. rewrite <- app_assoc. cbn [app].
    split; [|split; [|reflexivity]].
    + replace (length (rev r) + 2 - 2) with (length (rev r)) by lia. unfold aget.
      rewrite nth_error_app2, Nat.sub_diag by lia. reflexivity.
    + replace (length (rev r) + 2 - 1) with (S (length (rev r))) by lia. unfold aget.
      rewrite nth_error_app2 by lia. replace (S (length (rev r)) - length (rev r)) with 1 by lia. reflexivity.
Qed.

Lemma parse_multi_spec m acc l r out : multi_rep m acc -> amulti acc l = Some out -> is_cstr l ->
  (match acc with Some a => is_cstr a | None => True end) ->
  exists m', parse_multi_line_string m (l ++ r) (length l) = OK (m', match out with inl _ => false | inr _ => true end) /\
    sb_buffer m' <> None /\
    match out with
    | inl w => multi_rep m' (Some w) /\ is_cstr w
    | inr n => sb_text m' = OK n /\ is_cstr n
    end.
Proof.
  intros Hm Ha Hl Hacc. unfold parse_multi_line_string.
  (* common part: text w after appending *)
  assert (Common : forall w m1, sb_inv m1 w -> sb_buffer m1 <> None -> is_cstr w ->
     (exists c t, w = c :: t /\ c <> SPACE) ->
     (if length w <? 2 then None else if ends_plus w then Some (inl (firstn (length w - 2) w)) else Some (inr (trim_right w))) = Some out ->
     exists m', (if sb_ptr m1 <? 2 then UB else
        do c2 <- aget (sb_cells m1) (sb_ptr m1 - 2);
        do c1 <- aget (sb_cells m1) (sb_ptr m1 - 1);
        if (c2 =? SPACE)%Z && (c1 =? PLUS)%Z then
          OK ({| sb_buffer := sb_buffer m1; sb_cap := sb_cap m1; sb_ptr := sb_ptr m1 - 2 |}, false)
        else
          do ptr <- multi_trim (sb_cells m1) (sb_ptr m1);
          do buf <- aset (sb_cells m1) ptr NUL;
          OK ({| sb_buffer := Some buf; sb_cap := sb_cap m1; sb_ptr := ptr |}, true))
        = OK (m', match out with inl _ => false | inr _ => true end) /\ sb_buffer m' <> None /\
        match out with inl w => multi_rep m' (Some w) /\ is_cstr w | inr n => sb_text m' = OK n /\ is_cstr n end).
  { intros w m1 I1 Hbn Hw Hns Ho.
    destruct I1 as [(I1 & _)|(buf & I1 & I2 & I3 & rest & I4)]; [contradiction|].
    assert (Ec : sb_cells m1 = w ++ NUL :: rest) by (unfold sb_cells; rewrite I1; exact I4).
    rewrite I3. destruct (Nat.ltb_spec (length w) 2); [discriminate|].
    rewrite Ec. destruct (ends_plus_cells w (NUL :: rest) H) as (c2 & c1 & -> & -> & Ep). cbn [bind].
    rewrite <- Ep. destruct (ends_plus w) eqn:Epl; injection Ho as <-.
    - eexists; split; [reflexivity|]. cbn [sb_buffer]. rewrite I1. split; [discriminate|].
      apply ends_plus_spec in Epl as [p Epp].
      assert (Ef : firstn (length w - 2) w = p).
      { rewrite Epp, app_length. cbn [length]. replace (length p + 2 - 2) with (length p) by lia. apply firstn_app_exact. }
      rewrite Ef. assert (Hp : is_cstr p) by (rewrite Epp in Hw; apply is_cstr_app in Hw; tauto).
      split; [|exact Hp]. unfold multi_rep. split; [|split; [|split]].
      + unfold sb_winv, sb_cells. cbn [sb_buffer sb_cap sb_ptr].
        split; [congruence|]. split; [rewrite Epp, app_length; cbn; lia|].
        rewrite I4, Epp, <- !app_assoc, firstn_app_exact. split; [reflexivity|]. right.
        rewrite <- I2, I4, Epp, !app_length. cbn. lia.
      + cbn [sb_cap]. rewrite <- I2, I4, app_length. cbn. lia.
      + destruct Hns as (c & t & -> & Hc). destruct p as [|c' p]; cbn [app] in Epp; injection Epp as -> _.
        * contradiction.
        * eauto.
      + cbn [sb_buffer]. congruence.
    - assert (Ht : trim_right w <> []) by (destruct Hns as (c & t & -> & Hc); apply trim_right_nonblank; assumption).
      rewrite multi_trim_spec by assumption. cbn [bind].
      destruct (trim_right_prefix w) as (b & Eb & Fb).
      assert (Ecell : exists x q, w ++ NUL :: rest = trim_right w ++ x :: q).
      { assert (Eb' : w ++ NUL :: rest = trim_right w ++ (b ++ NUL :: rest)) by (rewrite app_assoc, <- Eb; reflexivity).
        rewrite Eb'. destruct b as [|x b]; cbn [app]; eauto. }
      destruct Ecell as (x & q & ->). rewrite aset_at. cbn [bind].
      eexists; split; [reflexivity|]. cbn [sb_buffer]. split; [discriminate|].
      assert (Htc : is_cstr (trim_right w)) by (rewrite Eb in Hw; apply is_cstr_app in Hw; tauto).
      split; [|exact Htc]. unfold sb_text. cbn [sb_buffer]. apply cstring_at_app. apply is_cstr_nonzero. exact Htc. }
  destruct acc as [a|].
  - destruct Hm as (Hw & Hcap & Hns & Hbn).
    destruct (Nat.eqb_spec (sb_cap m) 0); [contradiction|]. cbn [andb bind].
    rewrite skipn_O, Nat.sub_0_r.
    destruct (append_len_spec m a (l ++ r) (length l) Hw ltac:(rewrite app_length; lia)) as (m1 & -> & I1). cbn [bind].
    rewrite firstn_app_exact in I1.
    assert (Hb1 : sb_buffer m1 <> None).
    { destruct I1 as [(I1 & _ & _ & I1')|(buf & I1 & _)]; [|congruence].
      destruct Hns as (c & t & -> & _). discriminate. }
    apply (Common (a ++ l) m1 I1 Hb1).
    + apply is_cstr_app. auto.
    + destruct Hns as (c & t & -> & Hc). exists c, (t ++ l). auto.
    + unfold amulti in Ha. destruct (a ++ l) eqn:Eal; exact Ha.
  - cbn [multi_rep] in Hm. subst m. cbn [string_builder_new sb_cap Nat.eqb andb].
    destruct (drop_blanks_split l) as (b & El & Fb & D).
    assert (Ek : multi_blanks (length l) (l ++ r) 0 = OK (length b)).
    { refine (multi_blanks_spec (l ++ r) b (length l) [] (drop_blanks l) r _ Fb _ D).
      - cbn [app]. rewrite app_assoc, <- El. reflexivity.
      - rewrite <- El. reflexivity. }
    rewrite Ek. cbn [bind].
    assert (Hll : length l = length b + length (drop_blanks l)) by (rewrite <- app_length, <- El; reflexivity).
    destruct D as [D|(c & t & D & Hc)].
    + unfold amulti in Ha. rewrite D in Ha. injection Ha as <-.
      rewrite D in Hll. cbn [length] in Hll. destruct (Nat.eqb_spec (length b) (length l)); [|lia].
      cbn. eexists; split; [reflexivity|]. cbn. split; [discriminate|]. split; [reflexivity|constructor].
    + rewrite D in Hll. cbn [length] in Hll. destruct (Nat.eqb_spec (length b) (length l)); [lia|].
      assert (Esk : skipn (length b) (l ++ r) = drop_blanks l ++ r).
      { replace (l ++ r) with (b ++ (drop_blanks l ++ r)) by (rewrite app_assoc, <- El; reflexivity). apply skipn_app_exact. }
      rewrite Esk.
      assert (Wi : sb_winv string_builder_new []) by (apply sb_inv_winv; left; repeat split).
      destruct (append_len_spec string_builder_new [] (drop_blanks l ++ r) (length l - length b) Wi) as (m1 & E1 & I1).
      { rewrite app_length, D. cbn. lia. }
      rewrite E1. cbn [bind]. cbn [app] in I1.
      assert (Ef : firstn (length l - length b) (drop_blanks l ++ r) = drop_blanks l).
      { replace (length l - length b) with (length (drop_blanks l)) by (rewrite D; cbn [length]; lia). apply firstn_app_exact. }
      rewrite Ef in I1.
      assert (Hb1 : sb_buffer m1 <> None).
      { destruct I1 as [(_ & _ & _ & I1)|(buf & I1 & _)]; [rewrite D in I1; discriminate|congruence]. }
      apply (Common (drop_blanks l) m1 I1 Hb1).
      * rewrite El in Hl. apply is_cstr_app in Hl. tauto.
      * eauto.
      * unfold amulti in Ha. rewrite D in *. exact Ha.
Qed.
