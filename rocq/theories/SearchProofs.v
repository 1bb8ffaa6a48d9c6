From Coq Require Import Sorting.Sorted.
From Verif Require Import CBase CBaseFacts SearchModel SearchSpec.
Ltac Zify.zify_post_hook ::= Z.div_mod_to_equations.

(** Comparison signs along a sorted table: first >0, then 0, then <0. *)
Definition signs (cmp : nat -> res Z) (lo hi : nat) (c : nat -> Z) : Prop :=
  (forall i, lo <= i <= hi -> cmp i = OK (c i)) /\
  (forall i j, lo <= i <= j -> j <= hi ->
     ((c i < 0 -> c j < 0) /\ (c i <= 0 -> c j <= 0))%Z).

Lemma signs_sub cmp lo hi c lo' hi' :
  signs cmp lo hi c -> lo <= lo' -> hi' <= hi -> signs cmp lo' hi' c.
Proof.
  intros [H1 H2] Hlo Hhi; split.
  - intros i Hi; apply H1; lia.
  - intros i j Hi Hj; apply H2; lia.
Qed.

Lemma bsearch_fuel_spec fuel cmp lo hi c :
  lo <= hi -> hi - lo < fuel -> signs cmp lo hi c ->
  exists r, bsearch_fuel fuel cmp lo hi = OK r /\
    match r with
    | Some i => lo <= i <= hi /\ c i = 0%Z
    | None => forall i, lo <= i <= hi -> c i <> 0%Z
    end.
Proof.
  revert lo hi; induction fuel as [|fuel IH]; intros lo hi Hle Hf Hs; [lia|].
  cbn [bsearch_fuel].
  destruct Hs as [Hc Hm].
  destruct (Nat.eqb_spec lo hi) as [->|Hne].
  - rewrite Hc by lia. cbn [bind].
    destruct (Z.eqb_spec (c hi) 0) as [E|E].
    + eexists; split; [reflexivity|]. split; [lia|assumption].
    + eexists; split; [reflexivity|]. intros i Hi. replace i with hi by lia. assumption.
  - set (half := lo + (hi - lo) / 2).
    assert (Hhalf : lo <= half /\ half < hi) by (unfold half; lia).
    rewrite (Hc half) by lia. cbn [bind].
    destruct (Z.ltb_spec (c half) 0) as [E1|E1].
    + destruct (IH lo half) as (r & Hr & Hp); [lia|lia|eapply signs_sub; [split; eassumption|lia|lia]|].
      exists r; split; [exact Hr|]. destruct r as [i|].
      * destruct Hp; split; [lia|assumption].
      * intros i Hi. destruct (le_lt_dec i half) as [L|L]; [apply Hp; lia|].
        destruct (Hm half i) as [M1 _]; [lia|lia|]. specialize (M1 E1). lia.
    + destruct (Z.ltb_spec 0 (c half)) as [E2|E2].
      * assert (Hbelow : forall i, lo <= i <= half -> c i <> 0%Z).
        { intros i Hi. destruct (Hm i half) as [_ M2]; [lia|lia|]. lia. }
        destruct (Nat.eqb_spec half (hi - 1)) as [Eh|Eh].
        -- destruct (IH hi hi) as (r & Hr & Hp); [lia|lia|eapply signs_sub; [split; eassumption|lia|lia]|].
           exists r; split; [exact Hr|]. destruct r as [i|].
           ++ destruct Hp; split; [lia|assumption].
           ++ intros i Hi. destruct (le_lt_dec i half) as [L|L]; [apply Hbelow; lia|apply Hp; lia].
        -- assert (lo < half) by (unfold half in *; lia).
           destruct (IH half hi) as (r & Hr & Hp); [lia|lia|eapply signs_sub; [split; eassumption|lia|lia]|].
           exists r; split; [exact Hr|]. destruct r as [i|].
           ++ destruct Hp; split; [lia|assumption].
           ++ intros i Hi. destruct (le_lt_dec i half) as [L|L]; [apply Hbelow; lia|apply Hp; lia].
      * eexists; split; [reflexivity|]. split; lia.
Qed.

Lemma bsearch_insert_fuel_spec fuel cmp lo hi c :
  lo <= hi -> hi - lo < fuel -> signs cmp lo hi c ->
  exists p f, bsearch_insert_fuel fuel cmp lo hi = OK (p, f) /\
    lo <= p <= S hi /\
    if f then p <= hi /\ c p = 0%Z
    else (forall i, lo <= i < p -> (0 < c i)%Z) /\ (forall i, p <= i <= hi -> (c i < 0)%Z).
Proof.
  revert lo hi; induction fuel as [|fuel IH]; intros lo hi Hle Hf Hs; [lia|].
  cbn [bsearch_insert_fuel].
  destruct Hs as [Hc Hm].
  destruct (Nat.eqb_spec lo hi) as [->|Hne].
  - rewrite Hc by lia. cbn [bind].
    destruct (Z.eqb_spec (c hi) 0) as [E|E].
    + exists hi, true; split; [reflexivity|]. split; [lia|]. split; [lia|assumption].
    + destruct (Z.ltb_spec 0 (c hi)) as [E1|E1].
      * exists (hi + 1), false; split; [reflexivity|]. split; [lia|]. split; intros i Hi; [|lia].
        replace i with hi by lia. assumption.
      * exists hi, false; split; [reflexivity|]. split; [lia|]. split; intros i Hi; [lia|].
        replace i with hi by lia. lia.
  - set (half := lo + (hi - lo) / 2).
    assert (Hhalf : lo <= half /\ half < hi) by (unfold half; lia).
    rewrite (Hc half) by lia. cbn [bind].
    destruct (Z.ltb_spec (c half) 0) as [E1|E1].
    + destruct (IH lo half) as (p & f & Hr & Hb & Hp); [lia|lia|eapply signs_sub; [split; eassumption|lia|lia]|].
      exists p, f; split; [exact Hr|]. destruct f.
      * destruct Hp; split; [lia|]. split; [lia|assumption].
      * destruct Hp as [P1 P2]. assert (p <= half).
        { destruct (le_lt_dec p half) as [L|L]; [assumption|]. specialize (P1 half). lia. }
        split; [lia|]. split; [assumption|].
        intros i Hi. destruct (le_lt_dec i half) as [L|L]; [apply P2; lia|].
        destruct (Hm half i) as [M1 _]; [lia|lia|]. auto.
    + destruct (Z.ltb_spec 0 (c half)) as [E2|E2].
      * assert (Hbelow : forall i, lo <= i <= half -> (0 < c i)%Z).
        { intros i Hi. destruct (Hm i half) as [_ M2]; [lia|lia|]. lia. }
        destruct (Nat.eqb_spec half (hi - 1)) as [Eh|Eh].
        -- destruct (IH hi hi) as (p & f & Hr & Hb & Hp); [lia|lia|eapply signs_sub; [split; eassumption|lia|lia]|].
           exists p, f; split; [exact Hr|]. split; [lia|]. destruct f.
           ++ destruct Hp; split; [lia|assumption].
           ++ destruct Hp as [P1 P2]. split; [|exact P2].
              intros i Hi. destruct (le_lt_dec i half) as [L|L]; [apply Hbelow; lia|apply P1; lia].
        -- assert (lo < half) by (unfold half in *; lia).
           destruct (IH half hi) as (p & f & Hr & Hb & Hp); [lia|lia|eapply signs_sub; [split; eassumption|lia|lia]|].
           exists p, f; split; [exact Hr|]. split; [lia|]. destruct f.
           ++ destruct Hp; split; [lia|assumption].
           ++ destruct Hp as [P1 P2]. split; [|exact P2].
              intros i Hi. destruct (le_lt_dec i half) as [L|L]; [apply Hbelow; lia|apply P1; lia].
      * exists half, true; split; [reflexivity|]. split; [lia|]. split; lia.
Qed.

(** ** Order facts *)
Lemma strcmp_lt_bytes a b : (strcmp a b < 0)%Z <-> bytes_lt a b.
Proof.
  split.
  - revert b; induction a as [|x a IH]; intros [|y b]; simpl; try lia.
    + intros _. left. exists y, b. reflexivity.
    + destruct (Z.eqb_spec x y) as [->|n].
      * intros H. destruct (IH _ H) as [(z & t & ->)|(p & u & s & v & t & -> & -> & Huv)].
        -- left. exists z, t. reflexivity.
        -- right. exists (y :: p), u, s, v, t. auto.
      * destruct (Z.ltb_spec x y); [|lia]. intros _. right. exists [], x, a, y, b. auto.
  - intros [(y & t & ->)|(p & x & s & y & t & -> & -> & Hxy)].
    + induction a as [|x a IH]; simpl; [lia|]. rewrite Z.eqb_refl. assumption.
    + induction p as [|z p IH]; simpl.
      * destruct (Z.eqb_spec x y); [lia|]. destruct (Z.ltb_spec x y); lia.
      * rewrite Z.eqb_refl. assumption.
Qed.

Lemma bytes_lt_trans a b c : bytes_lt a b -> bytes_lt b c -> bytes_lt a c.
Proof. rewrite <- !strcmp_lt_bytes. apply strcmp_lt_trans. Qed.
Lemma bytes_lt_irrefl a : ~ bytes_lt a a.
Proof. rewrite <- strcmp_lt_bytes, strcmp_refl. lia. Qed.
Lemma strcmp_le_bytes a b : (strcmp a b <= 0)%Z <-> bytes_le a b.
Proof.
  unfold bytes_le. rewrite <- strcmp_lt_bytes, <- strcmp_eq.
  destruct (strcmp_range a b) as [-> | [-> | ->]]; lia.
Qed.
Lemma strcmp_gt_bytes a b : (0 < strcmp a b)%Z <-> bytes_lt b a.
Proof. rewrite <- strcmp_lt_bytes, strcmp_antisym. lia. Qed.
Lemma bytes_le_trans a b c : bytes_le a b -> bytes_le b c -> bytes_le a c.
Proof.
  intros [->|H1] [->|H2]; unfold bytes_le; auto. right. eapply bytes_lt_trans; eassumption.
Qed.
Lemma bytes_trichotomy a b : bytes_lt a b \/ a = b \/ bytes_lt b a.
Proof.
  rewrite <- !strcmp_lt_bytes, <- strcmp_eq, (strcmp_antisym a b).
  destruct (strcmp_range a b) as [-> | [-> | ->]]; lia.
Qed.

Lemma StronglySorted_nth {A} (R : A -> A -> Prop) l i j d :
  StronglySorted R l -> i < j < length l -> R (nth i l d) (nth j l d).
Proof.
  intros H; revert i j; induction H as [|x l Hs IH Hx]; intros i j Hij; simpl in Hij; [lia|].
  destruct j as [|j]; [lia|]. destruct i as [|i].
  - simpl. rewrite Forall_forall in Hx. apply Hx, nth_In. lia.
  - simpl. apply IH. lia.
Qed.

Lemma words_strict_sorted l : words_strict l -> words_sorted l.
Proof.
  intros H; induction H as [|x l Hs IH Hx]; constructor; [assumption|].
  eapply Forall_impl; [|exact Hx]. cbv beta. lia.
Qed.
Lemma names_strict_sorted l : names_strict l -> names_sorted l.
Proof.
  intros H; induction H as [|x l Hs IH Hx]; constructor; [assumption|].
  eapply Forall_impl; [|exact Hx]. cbv beta. right; assumption.
Qed.

Lemma d3_word_cmp_neg a b : (d3_word_cmp a b < 0 <-> a < b)%Z.
Proof. unfold d3_word_cmp. rewrite Z.gtb_ltb. destruct (Z.ltb_spec b a), (Z.ltb_spec a b); lia. Qed.
Lemma d3_word_cmp_pos a b : (0 < d3_word_cmp a b <-> b < a)%Z.
Proof. unfold d3_word_cmp. rewrite Z.gtb_ltb. destruct (Z.ltb_spec b a), (Z.ltb_spec a b); lia. Qed.
Lemma d3_word_cmp_zero a b : (d3_word_cmp a b = 0 <-> a = b)%Z.
Proof. unfold d3_word_cmp. rewrite Z.gtb_ltb. destruct (Z.ltb_spec b a), (Z.ltb_spec a b); lia. Qed.

Lemma word_signs arr v lo hi :
  words_sorted arr -> hi < length arr ->
  signs (fun i => do x <- aget arr i; OK (d3_word_cmp v x)) lo hi
        (fun i => d3_word_cmp v (nth i arr 0%Z)).
Proof.
  intros Hs Hh; split.
  - intros i Hi. rewrite (aget_nth _ _ 0%Z) by lia. reflexivity.
  - intros i j Hij Hj.
    assert (H : (nth i arr 0 <= nth j arr 0)%Z).
    { destruct (Nat.eq_dec i j) as [->|n]; [lia|].
      apply (StronglySorted_nth Z.le); [assumption|lia]. }
    split; intros Hc.
    + rewrite d3_word_cmp_neg in *. lia.
    + enough (~ (0 < d3_word_cmp v (nth j arr 0))%Z) by lia.
      assert (~ (0 < d3_word_cmp v (nth i arr 0))%Z) as Hn by lia.
      rewrite d3_word_cmp_pos in *. lia.
Qed.

Lemma name_signs arr v lo hi :
  names_sorted arr -> hi < length arr ->
  signs (fun i => do x <- aget arr i; OK (strcmp v x)) lo hi
        (fun i => strcmp v (nth i arr [])).
Proof.
  intros Hs Hh; split.
  - intros i Hi. rewrite (aget_nth _ _ []) by lia. reflexivity.
  - intros i j Hij Hj.
    assert (H : bytes_le (nth i arr []) (nth j arr [])).
    { destruct (Nat.eq_dec i j) as [->|n]; [left; reflexivity|].
      apply (StronglySorted_nth bytes_le); [assumption|lia]. }
    split; intros Hc.
    + apply strcmp_lt_bytes. apply strcmp_lt_bytes in Hc.
      destruct H as [<-|H]; [assumption|]. eapply bytes_lt_trans; eassumption.
    + apply strcmp_le_bytes. apply strcmp_le_bytes in Hc. eapply bytes_le_trans; eassumption.
Qed.

Lemma word_search_spec arr v :
  arr <> [] -> words_sorted arr ->
  exists r, d3_word_binary_search arr 0 (length arr - 1) v = OK r /\
    match r with
    | Some i => nth_error arr i = Some v
    | None => ~ In v arr
    end.
Proof.
  intros Hne Hs.
  assert (0 < length arr) by (destruct arr; [congruence|simpl; lia]).
  unfold d3_word_binary_search, bsearch.
  edestruct (bsearch_fuel_spec (S (length arr - 1 - 0)) (fun i => do x <- aget arr i; OK (d3_word_cmp v x))
               0 (length arr - 1)) as (r & Hr & Hp); [lia|lia|apply word_signs; [assumption|lia]|].
  exists r; split; [exact Hr|]. destruct r as [i|].
  - destruct Hp as [Hi Hc]. rewrite (nth_error_nth' _ 0%Z) by lia. f_equal.
    apply -> d3_word_cmp_zero in Hc. congruence.
  - intros Hin. apply (In_nth _ _ 0%Z) in Hin. destruct Hin as (i & Hi & Hv).
    apply (Hp i); [lia|]. apply <- d3_word_cmp_zero. congruence.
Qed.

Lemma name_search_spec arr v :
  arr <> [] -> names_sorted arr ->
  exists r, key_file_binary_search arr 0 (length arr - 1) v = OK r /\
    match r with
    | Some i => nth_error arr i = Some v
    | None => ~ In v arr
    end.
Proof.
  intros Hne Hs.
  assert (0 < length arr) by (destruct arr; [congruence|simpl; lia]).
  unfold key_file_binary_search, bsearch.
  edestruct (bsearch_fuel_spec (S (length arr - 1 - 0)) (fun i => do x <- aget arr i; OK (strcmp v x))
               0 (length arr - 1)) as (r & Hr & Hp); [lia|lia|apply name_signs; [assumption|lia]|].
  exists r; split; [exact Hr|]. destruct r as [i|].
  - destruct Hp as [Hi Hc]. rewrite (nth_error_nth' _ []) by lia. f_equal.
    apply -> strcmp_eq in Hc. congruence.
  - intros Hin. apply (In_nth _ _ []) in Hin. destruct Hin as (i & Hi & Hv).
    apply (Hp i); [lia|]. apply <- strcmp_eq. congruence.
Qed.

(** Insertion: the split of the table at the returned index. *)
Lemma firstn_Forall_nth {A} (P : A -> Prop) l n d :
  (forall i, i < n -> i < length l -> P (nth i l d)) -> Forall P (firstn n l).
Proof.
  revert n; induction l as [|x l IH]; intros n H; destruct n; simpl; constructor.
  - apply (H 0); simpl; lia.
  - apply IH. intros i Hi Hl. apply (H (S i)); simpl; lia.
Qed.
Lemma skipn_Forall_nth {A} (P : A -> Prop) l n d :
  (forall i, n <= i < length l -> P (nth i l d)) -> Forall P (skipn n l).
Proof.
  revert n; induction l as [|x l IH]; intros n H; destruct n; simpl; try constructor.
  - apply (H 0); simpl; lia.
  - rewrite <- (skipn_O l). apply IH. intros i Hi. apply (H (S i)); simpl; lia.
  - apply IH. intros i Hi. apply (H (S i)); simpl; lia.
Qed.

Lemma word_insert_spec arr v :
  arr <> [] -> words_sorted arr ->
  exists p f, d3_word_binary_search_insert arr 0 (length arr - 1) v = OK (p, f) /\
    (f = true -> nth_error arr p = Some v) /\
    (f = false -> ~ In v arr /\ p <= length arr /\
        Forall (fun x => (x < v)%Z) (firstn p arr) /\ Forall (fun x => (v < x)%Z) (skipn p arr)).
Proof.
  intros Hne Hs.
  assert (0 < length arr) by (destruct arr; [congruence|simpl; lia]).
  unfold d3_word_binary_search_insert, bsearch_insert.
  edestruct (bsearch_insert_fuel_spec (S (length arr - 1 - 0)) (fun i => do x <- aget arr i; OK (d3_word_cmp v x))
               0 (length arr - 1)) as (p & f & Hr & Hb & Hp); [lia|lia|apply word_signs; [assumption|lia]|].
  exists p, f; split; [exact Hr|]. destruct f; split; intros Hf; try discriminate.
  - destruct Hp as [Hi Hc]. rewrite (nth_error_nth' _ 0%Z) by lia. f_equal.
    apply -> d3_word_cmp_zero in Hc. congruence.
  - destruct Hp as [P1 P2].
    assert (F1 : Forall (fun x => (x < v)%Z) (firstn p arr)).
    { apply (firstn_Forall_nth _ _ _ 0%Z). intros i Hi Hl. apply d3_word_cmp_pos, P1. lia. }
    assert (F2 : Forall (fun x => (v < x)%Z) (skipn p arr)).
    { apply (skipn_Forall_nth _ _ _ 0%Z). intros i Hi. apply d3_word_cmp_neg, P2. lia. }
    repeat split; try assumption; [|lia].
    rewrite <- (firstn_skipn p arr). intros Hin. apply in_app_or in Hin.
    rewrite Forall_forall in F1, F2. destruct Hin as [Hin|Hin]; [apply F1 in Hin|apply F2 in Hin]; lia.
Qed.

Lemma name_insert_spec arr v :
  arr <> [] -> names_sorted arr ->
  exists p f, key_file_binary_search_insert arr 0 (length arr - 1) v = OK (p, f) /\
    (f = true -> nth_error arr p = Some v) /\
    (f = false -> ~ In v arr /\ p <= length arr /\
        Forall (fun x => bytes_lt x v) (firstn p arr) /\ Forall (fun x => bytes_lt v x) (skipn p arr)).
Proof.
  intros Hne Hs.
  assert (0 < length arr) by (destruct arr; [congruence|simpl; lia]).
  unfold key_file_binary_search_insert, bsearch_insert.
  edestruct (bsearch_insert_fuel_spec (S (length arr - 1 - 0)) (fun i => do x <- aget arr i; OK (strcmp v x))
               0 (length arr - 1)) as (p & f & Hr & Hb & Hp); [lia|lia|apply name_signs; [assumption|lia]|].
  exists p, f; split; [exact Hr|]. destruct f; split; intros Hf; try discriminate.
  - destruct Hp as [Hi Hc]. rewrite (nth_error_nth' _ []) by lia. f_equal.
    apply -> strcmp_eq in Hc. congruence.
  - destruct Hp as [P1 P2].
    assert (F1 : Forall (fun x => bytes_lt x v) (firstn p arr)).
    { apply (firstn_Forall_nth _ _ _ []). intros i Hi Hl. apply strcmp_gt_bytes, P1. lia. }
    assert (F2 : Forall (fun x => bytes_lt v x) (skipn p arr)).
    { apply (skipn_Forall_nth _ _ _ []). intros i Hi. apply strcmp_lt_bytes, P2. lia. }
    repeat split; try assumption; [|lia].
    rewrite <- (firstn_skipn p arr). intros Hin. apply in_app_or in Hin.
    rewrite Forall_forall in F1, F2. destruct Hin as [Hin|Hin]; [apply F1 in Hin|apply F2 in Hin];
      eapply bytes_lt_irrefl; eassumption.
Qed.

(** Index uniqueness on duplicate-free tables. *)
Lemma words_strict_nth_inj arr i j v : words_strict arr ->
  nth_error arr i = Some v -> nth_error arr j = Some v -> i = j.
Proof.
  intros Hs Hi Hj.
  assert (Li := nth_error_Some_lt _ _ _ Hi). assert (Lj := nth_error_Some_lt _ _ _ Hj).
  apply nth_error_nth with (d := 0%Z) in Hi, Hj.
  destruct (lt_eq_lt_dec i j) as [[L|E]|L]; [|assumption|];
    [assert (H := StronglySorted_nth _ _ i j 0%Z Hs) | assert (H := StronglySorted_nth _ _ j i 0%Z Hs)]; lia.
Qed.

Lemma names_strict_nth_inj arr i j v : names_strict arr ->
  nth_error arr i = Some v -> nth_error arr j = Some v -> i = j.
Proof.
  intros Hs Hi Hj.
  assert (Li := nth_error_Some_lt _ _ _ Hi). assert (Lj := nth_error_Some_lt _ _ _ Hj).
  apply nth_error_nth with (d := []) in Hi, Hj.
  destruct (lt_eq_lt_dec i j) as [[L|E]|L]; [|assumption|]; exfalso;
    [assert (H := StronglySorted_nth _ _ i j [] Hs) | assert (H := StronglySorted_nth _ _ j i [] Hs)];
    rewrite Hi, Hj in H; apply (bytes_lt_irrefl v), H; lia.
Qed.

Lemma word_search_iff arr v i : arr <> [] -> words_strict arr ->
  (d3_word_binary_search arr 0 (length arr - 1) v = OK (Some i) <-> nth_error arr i = Some v) /\
  (d3_word_binary_search arr 0 (length arr - 1) v = OK None <-> ~ In v arr).
Proof.
  intros Hne Hs. destruct (word_search_spec arr v Hne (words_strict_sorted _ Hs)) as (r & Hr & Hp).
  rewrite Hr. destruct r as [k|]; split; split; intros H; try congruence.
  - f_equal. f_equal. eapply words_strict_nth_inj; eassumption.
  - exfalso. apply H. eapply nth_error_In; eassumption.
  - exfalso. apply Hp. eapply nth_error_In; eassumption.
Qed.

Lemma name_search_iff arr v i : arr <> [] -> names_strict arr ->
  (key_file_binary_search arr 0 (length arr - 1) v = OK (Some i) <-> nth_error arr i = Some v) /\
  (key_file_binary_search arr 0 (length arr - 1) v = OK None <-> ~ In v arr).
Proof.
  intros Hne Hs. destruct (name_search_spec arr v Hne (names_strict_sorted _ Hs)) as (r & Hr & Hp).
  rewrite Hr. destruct r as [k|]; split; split; intros H; try congruence.
  - f_equal. f_equal. eapply names_strict_nth_inj; eassumption.
  - exfalso. apply H. eapply nth_error_In; eassumption.
  - exfalso. apply Hp. eapply nth_error_In; eassumption.
Qed.

Lemma StronglySorted_app_mid {A} (R : A -> A -> Prop) l1 v l2 :
  StronglySorted R (l1 ++ l2) -> Forall (fun x => R x v) l1 -> Forall (R v) l2 ->
  StronglySorted R (l1 ++ v :: l2).
Proof.
  induction l1 as [|x l1 IH]; simpl; intros H F1 F2.
  - constructor; assumption.
  - inversion H as [|? ? Hs Hx]; subst. inversion F1; subst. constructor; [auto|].
    apply Forall_app in Hx. apply Forall_app. destruct Hx. split; [assumption|]. constructor; assumption.
Qed.

Lemma word_insert_strict arr v : arr <> [] -> words_strict arr ->
  exists p f, d3_word_binary_search_insert arr 0 (length arr - 1) v = OK (p, f) /\
    (f = true <-> In v arr) /\
    (f = true -> nth_error arr p = Some v) /\
    (f = false -> p <= length arr /\ words_strict (firstn p arr ++ v :: skipn p arr)).
Proof.
  intros Hne Hs. destruct (word_insert_spec arr v Hne (words_strict_sorted _ Hs)) as (p & f & Hr & Ht & Hf).
  exists p, f; split; [exact Hr|]. split; [|split; [exact Ht|]].
  - destruct f; split; intros H; try congruence.
    + eapply nth_error_In; eauto.
    + destruct (Hf eq_refl) as (? & _); contradiction.
  - intros E. destruct (Hf E) as (_ & Hp & F1 & F2). split; [assumption|].
    apply StronglySorted_app_mid; [rewrite firstn_skipn; assumption|assumption|assumption].
Qed.

Lemma name_insert_strict arr v : arr <> [] -> names_strict arr ->
  exists p f, key_file_binary_search_insert arr 0 (length arr - 1) v = OK (p, f) /\
    (f = true <-> In v arr) /\
    (f = true -> nth_error arr p = Some v) /\
    (f = false -> p <= length arr /\ names_strict (firstn p arr ++ v :: skipn p arr)).
Proof.
  intros Hne Hs. destruct (name_insert_spec arr v Hne (names_strict_sorted _ Hs)) as (p & f & Hr & Ht & Hf).
  exists p, f; split; [exact Hr|]. split; [|split; [exact Ht|]].
  - destruct f; split; intros H; try congruence.
    + eapply nth_error_In; eauto.
    + destruct (Hf eq_refl) as (? & _); contradiction.
  - intros E. destruct (Hf E) as (_ & Hp & F1 & F2). split; [assumption|].
    apply StronglySorted_app_mid; [rewrite firstn_skipn; assumption|assumption|assumption].
Qed.

(** Checkers used by the non-vacuity examples. *)
Fixpoint strictb (l : list cstr) : bool :=
  match l with
  | x :: t => forallb (fun y => (strcmp x y <? 0)%Z) t && strictb t
  | [] => true
  end.
Fixpoint sortedb (l : list cstr) : bool :=
  match l with
  | x :: t => forallb (fun y => (strcmp x y <=? 0)%Z) t && sortedb t
  | [] => true
  end.
Lemma strictb_sound l : strictb l = true -> names_strict l.
Proof.
  induction l as [|x l IH]; simpl; intros H; constructor.
  - apply IH. destruct (strictb l); [reflexivity|]. rewrite andb_false_r in H. discriminate.
  - apply andb_prop in H. destruct H as [H _]. apply Forall_forall. intros y Hy.
    rewrite forallb_forall in H. apply strcmp_lt_bytes. specialize (H y Hy). lia.
Qed.
Lemma sortedb_sound l : sortedb l = true -> names_sorted l.
Proof.
  induction l as [|x l IH]; simpl; intros H; constructor.
  - apply IH. destruct (sortedb l); [reflexivity|]. rewrite andb_false_r in H. discriminate.
  - apply andb_prop in H. destruct H as [H _]. apply Forall_forall. intros y Hy.
    rewrite forallb_forall in H. apply strcmp_le_bytes. specialize (H y Hy). lia.
Qed.
