(** * Proofs about string builder and extra string *)
From Verif Require Import CBase CBaseFacts StringModel StringSpec.

(** ** String builder invariant: [b] holds exactly the bytes [w]. *)
Definition sb_inv (b : string_builder) (w : list Z) : Prop :=
  (sb_buffer b = None /\ sb_cap b = 0 /\ sb_ptr b = 0 /\ w = []) \/
  (exists m, sb_buffer b = Some m /\ length m = sb_cap b /\ sb_ptr b = length w /\
     exists rest, m = w ++ 0%Z :: rest).

(** Weaker invariant: the text occupies the first [ptr] cells, one more cell
    is allocated. *)
Definition sb_winv (b : string_builder) (w : list Z) : Prop :=
  length (sb_cells b) = sb_cap b /\ sb_ptr b = length w /\
  firstn (length w) (sb_cells b) = w /\ (w = [] \/ length w < sb_cap b).

Lemma sb_inv_winv b w : sb_inv b w -> sb_winv b w.
Proof.
  intros [(H1 & H2 & H3 & ->)|(m & H1 & H2 & H3 & rest & ->)]; unfold sb_winv, sb_cells; rewrite H1.
  - simpl. auto.
  - rewrite firstn_app_exact. rewrite <- H2, app_length. simpl. repeat split; auto. right. lia.
Qed.

Lemma realloc_length old n : length (realloc old n) = n.
Proof. unfold realloc. rewrite app_length, firstn_length, repeat_length. lia. Qed.

Lemma firstn_realloc old n k : k <= length old -> k <= n -> firstn k (realloc old n) = firstn k old.
Proof.
  intros H1 H2. unfold realloc. rewrite firstn_app, firstn_firstn, firstn_length.
  replace (k - Nat.min n (length old)) with 0 by lia. rewrite Nat.min_l by lia.
  simpl. apply app_nil_r.
Qed.

(** one append of [t] bytes with at least [length t + 1] free cells *)
Lemma sb_write b w cap t : sb_winv b w ->
  length w + length t + 1 <= cap ->
  exists rest, firstn (length w) (realloc (sb_cells b) cap) ++ t ++ 0%Z :: rest =
     firstn (length w) (realloc (sb_cells b) cap) ++ t ++ 0%Z :: skipn (length w + length t + 1) (realloc (sb_cells b) cap)
  /\ firstn (length w) (realloc (sb_cells b) cap) = w
  /\ length (w ++ t ++ 0%Z :: rest) = cap.
Proof.
  intros (H1 & H2 & H3 & H4) Hc.
  assert (Hw : length w <= length (sb_cells b)) by (destruct H4 as [->|]; simpl; lia).
  exists (skipn (length w + length t + 1) (realloc (sb_cells b) cap)).
  repeat split.
  - rewrite firstn_realloc by lia. assumption.
  - rewrite !app_length. simpl. rewrite skipn_length, realloc_length. lia.
Qed.

Lemma sb_room b w n : sb_winv b w -> 1 <= n \/ True ->
  length w + n + 1 <= (if sb_ptr b =? 0 then sb_cap b + n + 1 else sb_cap b + n).
Proof.
  intros (H1 & H2 & H3 & H4) _. rewrite H2.
  destruct w as [|x w]; simpl length; simpl Nat.eqb; cbv iota.
  - lia.
  - destruct H4 as [|H4]; [discriminate|]. simpl in H4. lia.
Qed.

Lemma append_spec b w s : sb_winv b w ->
  exists b', string_builder_append b s = OK b' /\ sb_inv b' (w ++ s).
Proof.
  intros H. pose proof (sb_room b w (length s) H (or_intror I)) as Hc.
  unfold string_builder_append.
  set (cap := if sb_ptr b =? 0 then _ else _) in *.
  assert (Hc' : length w + length s + 1 <= cap) by (unfold cap; destruct (sb_ptr b =? 0); lia).
  destruct (sb_write b w cap s H Hc') as (rest & E1 & E2 & E3).
  destruct H as (H1 & H2 & H3 & H4).
  rewrite memcpy_ok; [|rewrite realloc_length; lia|rewrite app_length; simpl; lia].
  cbn [bind]. eexists; split; [reflexivity|].
  right. rewrite H2 in *. eexists; split; [reflexivity|]. simpl.
  assert (Em : firstn (length w) (realloc (sb_cells b) cap) ++
     firstn (length s + 1) (s ++ [NUL]) ++ skipn (length w + (length s + 1)) (realloc (sb_cells b) cap)
     = (w ++ s) ++ 0%Z :: skipn (length w + length s + 1) (realloc (sb_cells b) cap)).
  { rewrite E2. rewrite (firstn_all2 (n:=length s + 1)) by (rewrite app_length; simpl; lia).
    rewrite <- !app_assoc. simpl. do 4 f_equal. lia. }
  rewrite Em. split; [|split].
  - rewrite !app_length. simpl. rewrite skipn_length, realloc_length. lia.
  - rewrite app_length. reflexivity.
  - eauto.
Qed.

Lemma skipn_cons {A} (l : list A) n : n < length l -> exists x, skipn n l = x :: skipn (S n) l.
Proof.
  revert n; induction l as [|y l IH]; intros n H; simpl in H; [lia|].
  destruct n as [|n]; [exists y; reflexivity|]. destruct (IH n ltac:(lia)) as [x E].
  exists x. simpl. simpl in E. rewrite E. reflexivity.
Qed.

Lemma aset_at {A} (p : list A) x q v : aset (p ++ x :: q) (length p) v = OK (p ++ v :: q).
Proof. induction p as [|y p IH]; simpl; [reflexivity|]. rewrite IH. reflexivity. Qed.

Lemma append_len_spec b w mem l : sb_winv b w -> l <= length mem ->
  exists b', string_builder_append_len b mem l = OK b' /\ sb_inv b' (w ++ firstn l mem).
Proof.
  intros H Hl. pose proof (sb_room b w (l+1) H (or_intror I)) as Hc.
  unfold string_builder_append_len.
  set (cap := if sb_ptr b =? 0 then _ else _) in *.
  assert (Lf : length (firstn l mem) = l) by (rewrite firstn_length; lia).
  assert (Hc' : length w + length (firstn l mem) + 1 <= cap)
    by (rewrite Lf; unfold cap; destruct (sb_ptr b =? 0); lia).
  destruct (sb_write b w cap (firstn l mem) H Hc') as (rest & E1 & E2 & E3).
  destruct H as (H1 & H2 & H3 & H4). rewrite Lf in *.
  rewrite memcpy_ok; [|rewrite realloc_length; lia|lia].
  cbn [bind]. rewrite H2, E2. rewrite app_assoc.
  destruct (skipn_cons (realloc (sb_cells b) cap) (length w + l)) as [x Ex]; [rewrite realloc_length; lia|].
  rewrite Ex.
  assert (Lw : length (w ++ firstn l mem) = length w + l) by (rewrite app_length; lia).
  rewrite <- Lw. rewrite aset_at. cbn [bind].
  eexists; split; [reflexivity|].
  right. eexists; split; [reflexivity|]. cbn [sb_cap sb_ptr].
  split; [|split].
  - rewrite (app_length (w ++ firstn l mem)). cbn [length]. rewrite skipn_length, realloc_length, Lw. lia.
  - reflexivity.
  - eauto.
Qed.

Lemma append_char_spec b w c : sb_winv b w ->
  exists b', string_builder_append_char b c = OK b' /\ sb_inv b' (w ++ [c]).
Proof.
  intros H. pose proof (sb_room b w 1 H (or_intror I)) as Hc.
  unfold string_builder_append_char.
  set (cap := if sb_ptr b =? 0 then _ else _) in *.
  assert (Hc' : length w + length [c] + 1 <= cap) by (simpl length; unfold cap; destruct (sb_ptr b =? 0); lia).
  destruct (sb_write b w cap [c] H Hc') as (rest & E1 & E2 & E3). simpl length in Hc'.
  destruct H as (H1 & H2 & H3 & H4).
  rewrite H2.
  set (m := realloc (sb_cells b) cap) in *.
  assert (Lm : length m = cap) by apply realloc_length.
  assert (Em : exists x y q, m = w ++ x :: y :: q).
  { destruct (skipn_cons m (length w)) as [x Ex]; [lia|].
    destruct (skipn_cons m (S (length w))) as [y Ey]; [lia|].
    exists x, y, (skipn (S (S (length w))) m). rewrite <- Ey, <- Ex, <- E2 at 1.
    symmetry. apply firstn_skipn. }
  destruct Em as (x & y & q & Em). rewrite Em, aset_at. cbn [bind].
  replace (w ++ c :: y :: q) with ((w ++ [c]) ++ y :: q) by (rewrite <- app_assoc; reflexivity).
  replace (length w + 1) with (length (w ++ [c])) by (rewrite app_length; reflexivity).
  rewrite aset_at. cbn [bind].
  eexists; split; [reflexivity|]. right. eexists; split; [reflexivity|]. cbn [sb_cap sb_ptr].
  split; [|split].
  - rewrite Em in Lm. rewrite !app_length in *. cbn [length] in *. lia.
  - reflexivity.
  - eauto.
Qed.

Lemma sb_apply_spec b w o : sb_inv b w -> op_ok o ->
  exists b', sb_apply b o = OK b' /\ sb_inv b' (w ++ op_text o).
Proof.
  intros H%sb_inv_winv Ho. destruct o; simpl.
  - apply append_spec; assumption.
  - apply append_char_spec; assumption.
  - apply append_len_spec; assumption.
Qed.

Lemma sb_run_spec ops : forall b w, sb_inv b w -> Forall op_ok ops ->
  exists b', sb_run b ops = OK b' /\ sb_inv b' (w ++ concat (map op_text ops)).
Proof.
  induction ops as [|o ops IH]; intros b w H Ho; simpl.
  - exists b. rewrite app_nil_r. auto.
  - inversion Ho; subst. destruct (sb_apply_spec b w o H H2) as (b1 & -> & I1). simpl.
    destruct (IH b1 _ I1 H3) as (b2 & E & I2). exists b2. split; [assumption|].
    rewrite app_assoc. assumption.
Qed.

Lemma sb_run_nonempty ops b b' : ops <> [] -> sb_run b ops = OK b' -> sb_buffer b' <> None.
Proof.
  revert b. induction ops as [|o ops IH]; intros b H E; [congruence|].
  simpl in E. destruct (sb_apply b o) as [b1| |] eqn:E1; try discriminate. simpl in E.
  destruct ops as [|o2 ops].
  - simpl in E. inversion E; subst. destruct o; simpl in E1.
    + unfold string_builder_append in E1. destruct (memcpy _ _ _ _ _); simpl in E1; try discriminate. inversion E1; simpl; congruence.
    + unfold string_builder_append_char in E1. destruct (aset _ _ _); simpl in E1; try discriminate.
      destruct (aset _ _ _); simpl in E1; try discriminate. inversion E1; simpl; congruence.
    + unfold string_builder_append_len in E1. destruct (memcpy _ _ _ _ _); simpl in E1; try discriminate.
      destruct (aset _ _ _); simpl in E1; try discriminate. inversion E1; simpl; congruence.
  - eapply IH; [|exact E]. discriminate.
Qed.

Lemma string_clone_ok s : is_cstr s -> string_clone s = OK s.
Proof.
  intros H. unfold string_clone, malloc. rewrite memcpy_ok; rewrite ?repeat_length; [|lia|rewrite app_length; simpl; lia].
  cbn [bind]. simpl firstn at 1. rewrite skipn_O, firstn_all2 by (rewrite app_length; simpl; lia).
  simpl app. rewrite <- app_assoc. apply cstring_at_app. apply is_cstr_nonzero. assumption.
Qed.

Lemma string_clone_len_ok mem l : l <= length mem -> string_clone_len mem l = OK (firstn l mem ++ [NUL]).
Proof.
  intros H. unfold string_clone_len, malloc. rewrite memcpy_ok; rewrite ?repeat_length; [|lia|lia].
  cbn [bind]. simpl firstn at 1. rewrite skipn_O. simpl app.
  assert (E : skipn l (repeat JUNK (l + 1)) = [JUNK]).
  { rewrite repeat_app, skipn_app, repeat_length, Nat.sub_diag, skipn_all2 by (rewrite repeat_length; lia). reflexivity. }
  rewrite E. replace (aset _ l NUL) with (aset (firstn l mem ++ [JUNK]) (length (firstn l mem)) NUL)
    by (rewrite firstn_length, Nat.min_l by lia; reflexivity).
  apply aset_at.
Qed.

(** ** Extra string *)
Lemma es_get_mem e i : length (es_buffer e) = 82 -> extra_string_get e i = aget (es_mem e) i.
Proof.
  intros H. unfold extra_string_get, es_mem, aget, ESB.
  destruct (Nat.ltb_spec i 82).
  - rewrite nth_error_app1 by lia. reflexivity.
  - rewrite nth_error_app2 by lia. rewrite H. reflexivity.
Qed.

Lemma aset_app1 {A} (a b : list A) i v : i < length a ->
  aset (a ++ b) i v = do a' <- aset a i v; OK (a' ++ b).
Proof.
  revert i; induction a as [|x a IH]; intros i H; simpl in *; [lia|].
  destruct i; [reflexivity|]. rewrite IH by lia. destruct (aset a i v); reflexivity.
Qed.
Lemma aset_app2 {A} (a b : list A) i v : length a <= i ->
  aset (a ++ b) i v = do b' <- aset b (i - length a) v; OK (a ++ b').
Proof.
  revert i; induction a as [|x a IH]; intros i H; cbn [length app] in *.
  - rewrite Nat.sub_0_r. destruct (aset b i v); reflexivity.
  - destruct i as [|i]; [lia|]. cbn [aset]. rewrite IH by lia. cbn [Nat.sub].
    destruct (aset b (i - length a) v); reflexivity.
Qed.

Lemma es_set_mem e i v : length (es_buffer e) = 82 ->
  match extra_string_set e i v, aset (es_mem e) i v with
  | OK e', OK m => es_mem e' = m /\ length (es_buffer e') = 82 /\ length (es_extra e') = length (es_extra e)
  | UB, UB => True
  | _, _ => False
  end.
Proof.
  intros H. unfold extra_string_set, es_mem, ESB.
  destruct (Nat.ltb_spec i 82).
  - rewrite aset_app1 by lia. rewrite (aset_lt (es_buffer e)) by lia. cbn [bind es_buffer es_extra]. repeat split; auto.
    rewrite app_length. cbn [length]. rewrite firstn_length, skipn_length. lia.
  - rewrite aset_app2 by lia. rewrite H.
    destruct (le_lt_dec (length (es_extra e)) (i - 82)) as [g|g].
    + rewrite aset_UB by lia. exact I.
    + destruct (aset (es_extra e) (i - 82) v) as [x| |] eqn:E; simpl; auto.
      * repeat split; auto. apply aset_length in E. assumption.
      * rewrite aset_lt in E by lia. discriminate.
Qed.


(** the comparison loop over the fixed buffer *)
Lemma es_buffer_nth e s i : es_holds e s -> i <= length s -> i < 82 ->
  aget (es_buffer e) i = OK (nth i s 0%Z).
Proof.
  intros (H1 & H2 & rest & H3) Hi H82.
  rewrite (aget_nth _ _ 0%Z) by lia. f_equal.
  replace (nth i (es_buffer e) 0%Z) with (nth i (es_mem e) 0%Z) by (unfold es_mem; rewrite app_nth1 by lia; reflexivity).
  rewrite H3. destruct (Nat.eq_dec i (length s)) as [->|].
  - rewrite nth_middle, nth_overflow by lia. reflexivity.
  - rewrite app_nth1 by lia. reflexivity.
Qed.

Lemma es_extra_nth e s i : es_holds e s -> 82 + i <= length s ->
  aget (es_extra e) i = OK (nth (82 + i) s 0%Z).
Proof.
  intros (H1 & H2 & rest & H3) Hi.
  assert (L : length (es_mem e) = length s + S (length rest)) by (rewrite H3, app_length; reflexivity).
  unfold es_mem in L. rewrite app_length in L.
  rewrite (aget_nth _ _ 0%Z) by lia. f_equal.
  replace (nth i (es_extra e) 0%Z) with (nth (82 + i) (es_mem e) 0%Z)
    by (unfold es_mem; rewrite app_nth2 by lia; f_equal; lia).
  rewrite H3. destruct (Nat.eq_dec (82 + i) (length s)) as [->|].
  - rewrite nth_middle, nth_overflow by lia. reflexivity.
  - rewrite app_nth1 by lia. reflexivity.
Qed.

Lemma firstn_S_nth {A} (s : list A) i d : i < length s -> firstn (S i) s = firstn i s ++ [nth i s d].
Proof.
  revert i; induction s as [|x s IH]; intros i H; simpl in H; [lia|].
  destruct i; [reflexivity|].
  change (x :: firstn (S i) s = x :: (firstn i s ++ [nth i s d])). f_equal. apply IH. lia.
Qed.

Lemma cstr_nth_pos s i : is_cstr s -> i < length s -> (0 < nth i s 0)%Z.
Proof.
  intros H Hi. unfold is_cstr in H; rewrite Forall_nth in H. specialize (H i 0%Z Hi). cbv beta in H. lia.
Qed.
Lemma cstr_nth0 s i : is_cstr s -> i <= length s -> nth i s 0%Z = 0%Z -> i = length s.
Proof.
  intros H Hi E. destruct (Nat.eq_dec i (length s)) as [|n]; [assumption|].
  pose proof (cstr_nth_pos s i H ltac:(lia)). lia.
Qed.

Lemma es_cmp_loop_spec n : forall e s rhs i,
  es_holds e s -> is_cstr rhs -> n + i = 82 -> i <= length s -> i <= length rhs ->
  firstn i s = firstn i rhs ->
  exists k r, es_cmp_loop n e rhs i = OK r /\ i <= k <= 82 /\ k <= length s /\ k <= length rhs /\
    firstn k s = firstn k rhs /\
    ((k = 82 /\ r = inr 82) \/
     (k < 82 /\ r = inr k /\ (k = length s \/ k = length rhs)) \/
     (k < 82 /\ k < length s /\ k < length rhs /\ nth k s 0%Z <> nth k rhs 0%Z /\
      r = inl (schar (nth k s 0) - schar (nth k rhs 0))%Z)).
Proof.
  induction n as [|n IH]; intros e s rhs i Hs Hr Hn Hi Hi' Hf; cbn [es_cmp_loop].
  - exists i, (inr i). replace i with 82 in * by lia. split; [reflexivity|]. repeat split; auto.
  - rewrite (es_buffer_nth e s i) by (assumption || lia). cbn [bind]. unfold NUL.
    destruct (Z.eqb_spec (nth i s 0%Z) 0) as [E|E].
    { exists i, (inr i). split; [reflexivity|]. repeat split; auto; try lia.
      right; left. repeat split; auto; [lia|]. left. destruct Hs as (_ & Hs & _). apply cstr_nth0; assumption. }
    rewrite cget_nth0 by assumption. cbn [bind].
    destruct (Z.eqb_spec (nth i rhs 0%Z) 0) as [E'|E'].
    { exists i, (inr i). split; [reflexivity|]. repeat split; auto; try lia.
      right; left. repeat split; auto; [lia|]. right. apply cstr_nth0; assumption. }
    assert (i < length s) by (destruct (Nat.eq_dec i (length s)) as [->|]; [rewrite nth_overflow in E by lia; congruence|lia]).
    assert (i < length rhs) by (destruct (Nat.eq_dec i (length rhs)) as [->|]; [rewrite nth_overflow in E' by lia; congruence|lia]).
    destruct (Z.eqb_spec (nth i s 0%Z) (nth i rhs 0%Z)) as [Q|Q].
    + destruct (IH e s rhs (i + 1) Hs Hr ltac:(lia) ltac:(lia) ltac:(lia)) as (k & r & K1 & K2 & K).
      { rewrite Nat.add_1_r. rewrite !(firstn_S_nth _ i 0%Z) by assumption. rewrite Hf, Q. reflexivity. }
      exists k, r. split; [assumption|]. split; [lia|]. exact K.
    + eexists i, _. split; [reflexivity|]. repeat split; auto; try lia.
      right; right. repeat split; auto; lia.
Qed.

Lemma neq_at {A} (s t : list A) k d : nth k s d <> nth k t d -> s <> t.
Proof. congruence. Qed.

Lemma eq_of_prefix {A} (s t : list A) k : firstn k s = firstn k t -> k = length s -> k = length t -> s = t.
Proof. intros H -> E. rewrite firstn_all in H. rewrite E, firstn_all in H. assumption. Qed.

Lemma strcmp_common k : forall s t, k <= length s -> k <= length t -> firstn k s = firstn k t ->
  strcmp s t = strcmp (skipn k s) (skipn k t).
Proof.
  induction k as [|k IH]; intros s t H1 H2 H; [reflexivity|].
  destruct s as [|x s], t as [|y t]; simpl in H1, H2; try lia.
  cbn [firstn] in H. injection H as -> H. cbn [strcmp skipn]. rewrite Z.eqb_refl. apply IH; [lia|lia|assumption].
Qed.

Lemma schar_lt x y : (0 <= x < 128)%Z -> (0 <= y < 128)%Z -> (schar x - schar y = x - y)%Z.
Proof. unfold schar. intros. destruct (Z.ltb_spec x 128), (Z.ltb_spec y 128); lia. Qed.

Lemma skipn_nth {A} (l : list A) k d : k < length l -> skipn k l = nth k l d :: skipn (S k) l.
Proof.
  revert k; induction l as [|x l IH]; intros k H; simpl in H; [lia|].
  destruct k; [reflexivity|]. change (skipn k l = nth k l d :: skipn (S k) l). apply IH. lia.
Qed.

Lemma schar_inj x y : (0 < x < 256)%Z -> (0 < y < 256)%Z -> (schar x - schar y = 0)%Z -> x = y.
Proof. unfold schar. intros. destruct (Z.ltb_spec x 128), (Z.ltb_spec y 128); lia. Qed.

Lemma cstr_nth_range s i : is_cstr s -> i < length s -> (0 < nth i s 0 < 256)%Z.
Proof. intros H Hi. unfold is_cstr in H; rewrite Forall_nth in H. exact (H i 0%Z Hi). Qed.

Lemma es_compare_spec e s rhs : es_holds e s -> is_cstr rhs -> length rhs < 82 ->
  exists d, extra_string_compare e rhs = OK d /\ (d = 0%Z <-> s = rhs) /\
    (Forall (fun b => b < 128)%Z s -> Forall (fun b => b < 128)%Z rhs -> Z.sgn d = strcmp s rhs).
Proof.
  intros Hs Hr HL. unfold extra_string_compare.
  destruct (es_cmp_loop_spec 82 e s rhs 0 Hs Hr eq_refl ltac:(lia) ltac:(lia) eq_refl)
    as (k & r & E & K1 & K2 & K3 & K4 & K5).
  unfold ESB. rewrite E. cbn [bind].
  pose proof Hs as (Hb & Hc & _).
  destruct K5 as [(-> & ->)|[(Q1 & -> & Q2)|(Q1 & Q2 & Q3 & Q4 & ->)]]; [lia| |].
  - destruct (Nat.eqb_spec k 82); [lia|].
    rewrite (es_buffer_nth e s k) by (assumption || lia). cbn [bind].
    rewrite cget_nth0 by lia. cbn [bind]. unfold NUL.
    rewrite (strcmp_common k s rhs) by assumption.
    destruct (Z.eqb_spec (nth k s 0%Z) 0) as [E1|E1], (Z.eqb_spec (nth k rhs 0%Z) 0) as [E2|E2]; cbn [andb];
      eexists; (split; [reflexivity|]).
    + apply cstr_nth0 in E1; try assumption. apply cstr_nth0 in E2; try assumption.
      split; [split; [intros _|reflexivity]|].
      * eapply eq_of_prefix; eassumption.
      * intros _ _. subst k. rewrite E2, !skipn_all. rewrite <- E2, skipn_all. reflexivity.
    + apply cstr_nth0 in E1; try assumption.
      split; [split; [lia|intros ->]|]; [rewrite E1, nth_overflow in E2 by lia; congruence|].
      intros _ _. destruct (Nat.eq_dec k (length rhs)) as [Ek|]; [rewrite Ek, nth_overflow in E2 by lia; congruence|].
      rewrite E1 at 1. rewrite skipn_all. rewrite (skipn_nth rhs k 0%Z) by lia. reflexivity.
    + apply cstr_nth0 in E2; try assumption.
      split; [split; [lia|intros ->]|]; [rewrite E2, nth_overflow in E1 by lia; congruence|].
      intros _ _. destruct (Nat.eq_dec k (length s)) as [Ek|]; [rewrite Ek, nth_overflow in E1 by lia; congruence|].
      rewrite E2 at 2. rewrite skipn_all. rewrite (skipn_nth s k 0%Z) by lia. reflexivity.
    + exfalso. destruct Q2 as [Q2|Q2]; rewrite Q2, nth_overflow in * by lia; congruence.
  - eexists; split; [reflexivity|].
    pose proof (cstr_nth_range s k Hc Q2). pose proof (cstr_nth_range rhs k Hr Q3).
    split; [split; [|intros ->; congruence]|].
    + intros D. exfalso. apply Q4. apply schar_inj; assumption.
    + intros As Ar. rewrite Forall_nth in As, Ar. specialize (As k 0%Z Q2). specialize (Ar k 0%Z Q3).
      cbv beta in As, Ar. rewrite schar_lt by lia.
      rewrite (strcmp_common k s rhs) by assumption.
      rewrite (skipn_nth s k 0%Z), (skipn_nth rhs k 0%Z) by assumption. cbn [strcmp].
      destruct (Z.eqb_spec (nth k s 0%Z) (nth k rhs 0%Z)); [congruence|].
      destruct (Z.ltb_spec (nth k s 0%Z) (nth k rhs 0%Z)); lia.
Qed.

Lemma prefix_nth s p k : is_cstr p -> (exists t, s = p ++ t) -> k < length p -> nth k s 0%Z = nth k p 0%Z.
Proof. intros _ [t ->] H. apply app_nth1. assumption. Qed.

Lemma prefix_of_firstn {A} (s p : list A) k : firstn k s = firstn k p -> k = length p -> k <= length s ->
  exists t, s = p ++ t.
Proof.
  intros H -> L. rewrite firstn_all in H. exists (skipn (length p) s). rewrite <- H at 1. symmetry. apply firstn_skipn.
Qed.

Lemma es_pre_loop_spec n : forall e s p j,
  es_holds e s -> is_cstr p -> 82 + j <= length s -> 82 + j <= length p ->
  firstn (82 + j) s = firstn (82 + j) p -> length p - (82 + j) < n ->
  exists r, es_pre_loop n e p j (82 + j) = OK r /\
    ((r = inl tt /\ ~ (exists t, s = p ++ t) /\ ~ (exists t, p = s ++ t)) \/
     (exists k, r = inr k) /\ ((exists t, s = p ++ t) \/ (exists t, p = s ++ t))).
Proof.
  induction n as [|n IH]; intros e s p j Hs Hp H1 H2 Hf Hn; [lia|]. cbn [es_pre_loop].
  rewrite (es_extra_nth e s j Hs H1). cbn [bind]. unfold NUL.
  pose proof Hs as (Hb & Hc & _).
  destruct (Z.eqb_spec (nth (82 + j) s 0%Z) 0) as [E|E].
  { eexists; split; [reflexivity|]. right. split; [eauto|]. right.
    apply cstr_nth0 in E; try assumption. apply (prefix_of_firstn p s (82 + j)); auto. }
  rewrite cget_nth0 by assumption. cbn [bind].
  destruct (Z.eqb_spec (nth (82 + j) p 0%Z) 0) as [E'|E'].
  { eexists; split; [reflexivity|]. right. split; [eauto|]. left.
    apply cstr_nth0 in E'; try assumption. apply (prefix_of_firstn s p (82 + j)); auto. }
  assert (82 + j < length s) by (destruct (Nat.eq_dec (82 + j) (length s)) as [Q|]; [rewrite Q, nth_overflow in E by lia; congruence|lia]).
  assert (82 + j < length p) by (destruct (Nat.eq_dec (82 + j) (length p)) as [Q|]; [rewrite Q, nth_overflow in E' by lia; congruence|lia]).
  destruct (Z.eqb_spec (nth (82 + j) s 0%Z) (nth (82 + j) p 0%Z)) as [Q|Q].
  - replace (82 + j + 1) with (82 + (j + 1)) by lia. apply IH; auto; try lia.
    replace (82 + (j + 1)) with (S (82 + j)) by lia.
    rewrite !(firstn_S_nth _ (82 + j) 0%Z) by assumption. congruence.
  - eexists; split; [reflexivity|]. left. split; [reflexivity|].
    split; intros [t Ht]; apply Q; rewrite Ht; rewrite app_nth1 by lia; reflexivity.
Qed.

Lemma es_starts_spec e s p : es_holds e s -> is_cstr p ->
  exists b, extra_string_starts_with e p = OK b /\
    (b = true <-> (exists t, s = p ++ t) \/ (82 <= length s /\ exists t, p = s ++ t)).
Proof.
  intros Hs Hp. unfold extra_string_starts_with.
  destruct (es_cmp_loop_spec 82 e s p 0 Hs Hp eq_refl ltac:(lia) ltac:(lia) eq_refl)
    as (k & r & E & K1 & K2 & K3 & K4 & K5).
  unfold ESB. rewrite E. cbn [bind].
  pose proof Hs as (Hb & Hc & _).
  destruct K5 as [(-> & ->)|[(Q1 & -> & Q2)|(Q1 & Q2 & Q3 & Q4 & ->)]].
  - rewrite Nat.eqb_refl. rewrite cget_nth0 by assumption. cbn [bind]. unfold NUL.
    destruct (Z.eqb_spec (nth 82 p 0%Z) 0) as [E'|E'].
    + exists true. split; [reflexivity|]. split; [intros _|reflexivity]. left.
      apply cstr_nth0 in E'; try assumption. apply (prefix_of_firstn s p 82); auto.
    + destruct (es_pre_loop_spec (S (length p)) e s p 0 Hs Hp) as (q & Eq & Hq); try lia.
      { exact K4. }
      change (82 + 0) with 82 in Eq. rewrite Eq. cbn [bind].
      destruct Hq as [(-> & N1 & N2)|((k & ->) & Y)].
      * exists false. split; [reflexivity|]. split; [discriminate|]. intros [Y|(_ & Y)]; contradiction.
      * exists true. split; [reflexivity|]. split; [intros _|reflexivity].
        destruct Y as [Y|Y]; [left|right]; auto.
  - destruct (Nat.eqb_spec k 82); [lia|].
    rewrite (es_buffer_nth e s k) by (assumption || lia). cbn [bind]. unfold NUL.
    destruct (Z.eqb_spec (nth k s 0%Z) 0) as [E1|E1].
    + apply cstr_nth0 in E1; try assumption.
      rewrite cget_nth0 by assumption. cbn [bind]. eexists; split; [reflexivity|].
      destruct (Z.eqb_spec (nth k p 0%Z) 0) as [E2|E2].
      * apply cstr_nth0 in E2; try assumption. split; [intros _|reflexivity]. left.
        apply (prefix_of_firstn s p k); auto.
      * split; [discriminate|]. intros [[t Ht]|[H _]]; [|lia]. exfalso.
        assert (length p <= length s) by (rewrite Ht, app_length; lia).
        replace k with (length p) in E2 by lia. rewrite nth_overflow in E2 by lia. congruence.
    + exists true. split; [reflexivity|]. split; [intros _|reflexivity]. left.
      destruct Q2 as [Q2|Q2]; [rewrite Q2, nth_overflow in E1 by lia; congruence|].
      apply (prefix_of_firstn s p k); auto.
  - exists false. split; [reflexivity|]. split; [discriminate|].
    intros [[t Ht]|(_ & t & Ht)]; exfalso; apply Q4; rewrite Ht; rewrite app_nth1 by lia; reflexivity.
Qed.

(** ** copy *)
Lemma es_copy_ok dst src s offset :
  es_holds src s -> length (es_buffer dst) = 82 -> offset <= length s ->
  (length s < 82 \/ offset + 81 <= length s) -> offset <= 82 ->
  exists e, extra_string_copy dst src (length s) offset = OK e /\ es_holds e (skipn offset s).
Proof.
  intros (Hb & Hc & rest & Hm) Hd Ho Hl Ho82. unfold extra_string_copy, memcpy_diff, ESB.
  assert (Hsk : is_cstr (skipn offset s)).
  { rewrite <- (firstn_skipn offset s) in Hc. apply is_cstr_app in Hc. tauto. }
  destruct (Nat.ltb_spec 82 offset); [lia|].
  rewrite memcpy_ok by lia. cbn [bind].
  assert (E0 : firstn 0 (es_buffer dst) ++ firstn (82 - offset) (skipn offset (es_buffer src)) ++ skipn (0 + (82 - offset)) (es_buffer dst)
     = skipn offset (es_buffer src) ++ skipn (82 - offset) (es_buffer dst)).
  { cbn [firstn app Nat.add]. rewrite (firstn_all2 (n := 82 - offset)) by (rewrite skipn_length; lia). reflexivity. }
  rewrite E0; clear E0.
  assert (Lb : length (skipn offset (es_buffer src) ++ skipn (82 - offset) (es_buffer dst)) = 82)
    by (rewrite app_length, !skipn_length; lia).
  assert (Lm : length (es_buffer src) + length (es_extra src) = length s + S (length rest)).
  { rewrite <- app_length. fold (es_mem src). rewrite Hm, app_length. reflexivity. }
  destruct (Nat.leb_spec 82 (length s)) as [G|G].
  - destruct Hl as [|Hl]; [lia|].
    assert (Em : es_buffer src ++ firstn (length s - 82 + 1) (es_extra src) = s ++ [0%Z]).
    { assert (E : firstn (length s + 1) (es_mem src) = s ++ [0%Z]).
      { rewrite Hm. rewrite firstn_app, firstn_all2 by lia. replace (length s + 1 - length s) with 1 by lia. reflexivity. }
      rewrite <- E. unfold es_mem. rewrite firstn_app, (firstn_all2 (n := length s + 1)) by lia. do 2 f_equal. lia. }
    destruct (Nat.eqb_spec offset 0) as [->|Hz]; cbn [negb].
    + rewrite memcpy_ok by (rewrite ?realloc_length; lia). cbn [bind].
      eexists; split; [reflexivity|]. unfold es_holds, es_mem. cbn [es_buffer es_extra]. split; [exact Lb|].
      split; [assumption|].
      exists []. cbn [skipn firstn app Nat.add].
      rewrite (skipn_all2 (es_buffer dst)) by lia.
      rewrite skipn_all2 by (rewrite realloc_length; lia).
      rewrite !app_nil_r. exact Em.
    + rewrite memcpy_ok by lia. cbn [bind].
      destruct (Nat.ltb_spec (length s - 82 + 1) offset); [lia|].
      rewrite memcpy_ok by (rewrite ?realloc_length; lia). cbn [bind].
      eexists; split; [reflexivity|]. unfold es_holds, es_mem. cbn [es_buffer es_extra].
      replace (82 - offset + offset) with 82 by lia.
      rewrite (skipn_all2 (n := 82)) by lia. rewrite app_nil_r. cbn [skipn firstn app].
      assert (Ef : firstn (82 - offset) (skipn offset (es_buffer src) ++ skipn (82 - offset) (es_buffer dst)) = skipn offset (es_buffer src)).
      { rewrite firstn_app, skipn_length, Hb, Nat.sub_diag. cbn [firstn]. rewrite app_nil_r. apply firstn_all2. rewrite skipn_length. lia. }
      rewrite Ef. split; [rewrite app_length, skipn_length, firstn_length; lia|]. split; [assumption|].
      rewrite <- !app_assoc.
      set (R := skipn _ (realloc _ _)). exists R.
      replace (skipn offset s ++ 0%Z :: R) with ((skipn offset s ++ [0%Z]) ++ R) by (rewrite <- app_assoc; reflexivity).
      rewrite !app_assoc. f_equal.
      replace (skipn offset s ++ [0%Z]) with (skipn offset (s ++ [0%Z])).
      2:{ rewrite skipn_app. replace (offset - length s) with 0 by lia. reflexivity. }
      rewrite <- Em. rewrite skipn_app. rewrite Hb. replace (offset - 82) with 0 by lia. cbn [skipn].
      rewrite <- app_assoc. f_equal.
      replace (firstn (length s - 82 + 1) (es_extra src)) with
        (firstn offset (firstn (length s - 82 + 1) (es_extra src)) ++ skipn offset (firstn (length s - 82 + 1) (es_extra src)))
        by apply firstn_skipn.
      rewrite firstn_firstn, Nat.min_l by lia. f_equal.
      rewrite firstn_firstn_skipn. do 2 f_equal. lia.
  - eexists; split; [reflexivity|]. unfold es_holds, es_mem. cbn [es_buffer es_extra]. split; [exact Lb|].
    split; [assumption|].
    assert (Eb : exists r, es_buffer src = s ++ 0%Z :: r).
    { exists (firstn (82 - length s - 1) rest).
      assert (E : es_buffer src = firstn 82 (es_mem src)).
      { unfold es_mem. rewrite firstn_app, Hb, firstn_all2 by lia. cbn [Nat.sub firstn]. rewrite app_nil_r. reflexivity. }
      rewrite E, Hm, firstn_app, firstn_all2 by lia.
      destruct (82 - length s) as [|q] eqn:Eq; [lia|]. cbn [Nat.sub firstn]. rewrite Nat.sub_0_r. reflexivity. }
    destruct Eb as [r Eb]. rewrite Eb. rewrite skipn_app. replace (offset - length s) with 0 by lia. cbn [skipn].
    rewrite <- !app_assoc. cbn [app]. eauto.
Qed.

Lemma es_copy_UB dst src src_len offset :
  82 <= src_len -> src_len < offset + 81 -> offset <> 0 ->
  extra_string_copy dst src src_len offset = UB.
Proof.
  intros H1 H2 H3. unfold extra_string_copy, memcpy_diff, ESB.
  destruct (82 <? offset); [reflexivity|].
  assert (N : forall A (d : list A) a s b c, memcpy d a s b c <> OOF).
  { intros. unfold memcpy. destruct (_ && _); discriminate. }
  destruct (memcpy _ _ _ _ _) eqn:E1; cbn [bind]; try reflexivity; [|exfalso; eapply N; eassumption].
  destruct (Nat.leb_spec 82 src_len); [|lia].
  destruct (Nat.eqb_spec offset 0); [lia|]. cbn [negb].
  destruct (memcpy a _ _ _ _) eqn:E2; cbn [bind]; try reflexivity; [|exfalso; eapply N; eassumption].
  destruct (Nat.ltb_spec (src_len - 82 + 1) offset); [reflexivity|lia].
Qed.

Lemma es_copy_to_string_ok dst src s : es_holds src s -> length s < length dst ->
  exists d, extra_string_copy_to_string dst src (length s) = OK d /\
    length d = length dst /\ firstn (length s) d = s /\ (82 <= length s -> nth (length s) d 1%Z = 0%Z).
Proof.
  intros (Hb & Hc & rest & Hm) Hd. unfold extra_string_copy_to_string, ESB.
  assert (Lm : length (es_buffer src) + length (es_extra src) = length s + S (length rest)).
  { rewrite <- app_length. fold (es_mem src). rewrite Hm, app_length. reflexivity. }
  destruct (Nat.ltb_spec (length s) 82) as [G|G].
  - rewrite memcpy_ok by lia. eexists; split; [reflexivity|].
    assert (E : firstn (length s) (es_buffer src) = s).
    { transitivity (firstn (length s) (es_mem src)).
      - unfold es_mem. rewrite firstn_app. replace (length s - length (es_buffer src)) with 0 by lia.
        cbn [firstn]. rewrite app_nil_r. reflexivity.
      - rewrite Hm. apply firstn_app_exact. }
    cbn [firstn skipn app Nat.add]. rewrite E. split; [|split; [apply firstn_app_exact|lia]].
    rewrite app_length, skipn_length. lia.
  - rewrite memcpy_ok by lia. cbn [bind Nat.add]. rewrite firstn_O, skipn_O. cbn [app].
    rewrite (firstn_all2 (n := 82)) by lia.
    rewrite memcpy_ok by (rewrite ?app_length, ?skipn_length; lia).
    eexists; split; [reflexivity|].
    rewrite firstn_app, Hb, Nat.sub_diag, (firstn_all2 (n := 82)) by lia. rewrite firstn_O, skipn_O, app_nil_r.
    assert (Em : es_buffer src ++ firstn (length s - 82 + 1) (es_extra src) = s ++ [0%Z]).
    { assert (E : firstn (length s + 1) (es_mem src) = s ++ [0%Z]).
      { rewrite Hm. rewrite firstn_app, firstn_all2 by lia. replace (length s + 1 - length s) with 1 by lia. reflexivity. }
      rewrite <- E. unfold es_mem. rewrite firstn_app, (firstn_all2 (n := length s + 1)) by lia. do 2 f_equal. lia. }
    rewrite app_assoc, Em. rewrite <- app_assoc. split; [|split].
    + rewrite !app_length, skipn_length, app_length, skipn_length. cbn [length]. lia.
    + apply firstn_app_exact.
    + intros _. rewrite app_nth2 by lia. rewrite Nat.sub_diag. reflexivity.
Qed.
