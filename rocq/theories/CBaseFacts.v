(** Facts about the shared vocabulary. *)
From Verif Require Import CBase.

Lemma aget_OK {A} (a : list A) i x : aget a i = OK x <-> nth_error a i = Some x.
Proof. unfold aget; destruct (nth_error a i); split; congruence. Qed.

Lemma aget_lt {A} (a : list A) i : i < length a -> exists x, aget a i = OK x.
Proof.
  intros H. apply nth_error_Some in H. unfold aget.
  destruct (nth_error a i) as [x|]; [eauto|congruence].
Qed.

Lemma aget_nth {A} (a : list A) i d : i < length a -> aget a i = OK (nth i a d).
Proof. intros H. unfold aget. rewrite (nth_error_nth' a d H). reflexivity. Qed.

Lemma aget_UB {A} (a : list A) i : length a <= i -> aget a i = UB.
Proof. intros H. apply nth_error_None in H. unfold aget. rewrite H. reflexivity. Qed.

Lemma cget_nth s i d : i < length s -> cget s i = OK (nth i s d).
Proof.
  intros H. unfold cget. rewrite (aget_nth _ _ d) by (rewrite app_length; simpl; lia).
  rewrite app_nth1 by lia. reflexivity.
Qed.

Lemma cget_end s : cget s (length s) = OK 0%Z.
Proof.
  unfold cget. rewrite (aget_nth _ _ 0%Z) by (rewrite app_length; simpl; lia).
  rewrite nth_middle. reflexivity.
Qed.

Lemma cget_app_r p s i : cget (p ++ s) (length p + i) = cget s i.
Proof.
  unfold cget, aget. rewrite <- app_assoc.
  rewrite nth_error_app2 by lia.
  replace (length p + i - length p) with i by lia. reflexivity.
Qed.

Lemma cget_app_at p x s : cget (p ++ x :: s) (length p) = OK x.
Proof.
  replace (length p) with (length p + 0) by lia. rewrite cget_app_r. reflexivity.
Qed.

Lemma is_cstr_app a b : is_cstr (a ++ b) <-> is_cstr a /\ is_cstr b.
Proof. apply Forall_app. Qed.

Lemma aset_length {A} (a : list A) i v a' : aset a i v = OK a' -> length a' = length a.
Proof.
  revert i a'; induction a as [|x a IH]; intros i a'; simpl; [discriminate|].
  destruct i as [|i].
  - intros H; inversion H; reflexivity.
  - destruct (aset a i v) as [t| |] eqn:E; simpl; try discriminate.
    intros H; inversion H; subst. simpl. f_equal. eauto.
Qed.

Lemma aset_lt {A} (a : list A) i v : i < length a ->
  aset a i v = OK (firstn i a ++ v :: skipn (S i) a).
Proof.
  revert i; induction a as [|x a IH]; intros i H; simpl in H; [lia|].
  destruct i as [|i]; simpl; [reflexivity|].
  rewrite IH by lia. reflexivity.
Qed.

Lemma aset_UB {A} (a : list A) i v : length a <= i -> aset a i v = UB.
Proof.
  revert i; induction a as [|x a IH]; intros i H; simpl in *; [reflexivity|].
  destruct i; [lia|]. rewrite IH by lia. reflexivity.
Qed.

(** strcmp *)
Lemma strcmp_refl a : strcmp a a = 0%Z.
Proof. induction a; simpl; [reflexivity|]. rewrite Z.eqb_refl. assumption. Qed.

Lemma strcmp_eq a b : strcmp a b = 0%Z <-> a = b.
Proof.
  split; [|intros ->; apply strcmp_refl].
  revert b; induction a as [|x a IH]; intros [|y b]; simpl; try congruence.
  destruct (Z.eqb_spec x y) as [->|n].
  - intros H; f_equal; auto.
  - destruct (x <? y)%Z; discriminate.
Qed.

Lemma strcmp_antisym a b : strcmp b a = (- strcmp a b)%Z.
Proof.
  revert b; induction a as [|x a IH]; intros [|y b]; simpl; try reflexivity.
  rewrite (Z.eqb_sym y x).
  destruct (Z.eqb_spec x y) as [->|n]; [apply IH|].
  destruct (Z.ltb_spec x y), (Z.ltb_spec y x); try reflexivity; lia.
Qed.

Lemma strcmp_range a b : strcmp a b = (-1)%Z \/ strcmp a b = 0%Z \/ strcmp a b = 1%Z.
Proof.
  revert b; induction a as [|x a IH]; intros [|y b]; simpl; auto.
  destruct (x =? y)%Z; [apply IH|]. destruct (x <? y)%Z; auto.
Qed.

Lemma strcmp_lt_trans a b c :
  (strcmp a b < 0)%Z -> (strcmp b c < 0)%Z -> (strcmp a c < 0)%Z.
Proof.
  revert b c; induction a as [|x a IH]; intros [|y b] [|z c]; simpl; try lia.
  destruct (Z.eqb_spec x y) as [->|n1].
  - destruct (Z.eqb_spec y z) as [->|n2]; [apply IH|].
    destruct (Z.ltb_spec y z); lia.
  - destruct (Z.eqb_spec y z) as [->|n2].
    + destruct (Z.eqb_spec x z) as [->|n3]; [lia|]. destruct (Z.ltb_spec x z); lia.
    + destruct (Z.ltb_spec x y), (Z.ltb_spec y z); try lia.
      destruct (Z.eqb_spec x z) as [->|n3]; [lia|]. destruct (Z.ltb_spec x z); lia.
Qed.

Lemma loop_S {S R} f (step : S -> res (S + R)) s :
  loop (Datatypes.S f) step s =
  match step s with
  | OK (inl s') => loop f step s'
  | OK (inr r) => OK r
  | UB => UB
  | OOF => OOF
  end.
Proof. reflexivity. Qed.

(** More fuel never changes a finished run. *)
Lemma loop_mono {S R} f f' (step : S -> res (S + R)) s r :
  loop f step s = r -> r <> OOF -> f <= f' -> loop f' step s = r.
Proof.
  revert f' s; induction f as [|f IH]; intros f' s H Hne Hle; [simpl in H; congruence|].
  destruct f' as [|f']; [lia|]. rewrite loop_S in *.
  destruct (step s) as [[s'|q]| |]; try assumption.
  apply IH; [assumption..|lia].
Qed.

Lemma nth_error_Some_lt {A} (l : list A) i x : nth_error l i = Some x -> i < length l.
Proof. intros H. apply nth_error_Some. congruence. Qed.

(** ** scan *)
Fixpoint span (p : Z -> bool) (l : list Z) : list Z * list Z :=
  match l with
  | [] => ([], [])
  | x :: t => if p x then let '(a, b) := span p t in (x :: a, b) else ([], l)
  end.

Lemma span_app p l : fst (span p l) ++ snd (span p l) = l.
Proof.
  induction l as [|x l IH]; simpl; [reflexivity|].
  destruct (p x); [|reflexivity]. destruct (span p l); simpl in *. congruence.
Qed.
Lemma span_fst p l : forallb p (fst (span p l)) = true.
Proof.
  induction l as [|x l IH]; simpl; [reflexivity|].
  destruct (p x) eqn:E; [|reflexivity]. destruct (span p l); simpl in *. rewrite E. assumption.
Qed.
Lemma span_snd p l : match snd (span p l) with [] => True | x :: _ => p x = false end.
Proof.
  induction l as [|x l IH]; simpl; [trivial|].
  destruct (p x) eqn:E; [|assumption]. destruct (span p l); simpl in *. assumption.
Qed.

Lemma scan_spec pre mid post p fuel :
  forallb p mid = true ->
  match post with [] => p 0%Z = false | x :: _ => p x = false end ->
  length mid < fuel ->
  scan fuel (pre ++ mid ++ post) p (length pre) = OK (length pre + length mid).
Proof.
  revert pre fuel; induction mid as [|x mid IH]; intros pre fuel Hm Hp Hf;
    (destruct fuel as [|fuel]; [simpl in Hf; lia|]); cbn [scan].
  - simpl app. simpl length. rewrite Nat.add_0_r. destruct post as [|y post].
    + rewrite app_nil_r, cget_end. cbn [bind]. rewrite Hp. reflexivity.
    + rewrite cget_app_at. cbn [bind]. rewrite Hp. reflexivity.
  - simpl in Hm. apply andb_prop in Hm. destruct Hm as [Hx Hm].
    simpl app. rewrite cget_app_at. cbn [bind]. rewrite Hx.
    specialize (IH (pre ++ [x]) fuel Hm Hp). rewrite app_length in IH. simpl length in IH.
    rewrite <- app_assoc in IH. simpl app in IH. simpl length in *.
    rewrite IH by lia. f_equal. lia.
Qed.

Lemma scan_span s p k fuel :
  p 0%Z = false -> k <= length s -> length s - k < fuel ->
  scan fuel s p k = OK (k + length (fst (span p (skipn k s)))).
Proof.
  intros H0 Hk Hf.
  set (mid := fst (span p (skipn k s))). set (post := snd (span p (skipn k s))).
  assert (E : s = firstn k s ++ mid ++ post).
  { unfold mid, post. rewrite span_app. symmetry. apply firstn_skipn. }
  assert (Hl : length (firstn k s) = k) by (rewrite firstn_length; lia).
  assert (Hlen : length s = k + length mid + length post).
  { apply (f_equal (@length Z)) in E. rewrite !app_length, Hl in E. lia. }
  assert (G : scan fuel (firstn k s ++ mid ++ post) p (length (firstn k s)) =
              OK (length (firstn k s) + length mid)).
  { apply scan_spec.
    - apply span_fst.
    - assert (Hs := span_snd p (skipn k s)). fold post in Hs. destruct post; assumption.
    - lia. }
  rewrite <- E, Hl in G. exact G.
Qed.

Lemma firstn_firstn_skipn {A} k (l : list A) n : firstn n (skipn k l) = skipn k (firstn (k + n) l).
Proof. rewrite skipn_firstn_comm. f_equal. lia. Qed.

Lemma skipn_skipn {A} a b (l : list A) : skipn a (skipn b l) = skipn (b + a) l.
Proof.
  revert l; induction b as [|b IH]; intros l; simpl; [reflexivity|].
  destruct l as [|x l]; [rewrite skipn_nil; reflexivity|]. apply IH.
Qed.

Lemma skipn_app_exact {A} (a b : list A) : skipn (length a) (a ++ b) = b.
Proof. rewrite skipn_app, skipn_all, Nat.sub_diag. reflexivity. Qed.
Lemma firstn_app_exact {A} (a b : list A) : firstn (length a) (a ++ b) = a.
Proof. rewrite firstn_app, firstn_all, Nat.sub_diag. simpl. apply app_nil_r. Qed.

(** ** memory *)
Lemma cstring_at_app s t : Forall (fun b => b <> 0%Z) s -> cstring_at (s ++ 0%Z :: t) = OK s.
Proof.
  induction s as [|x s IH]; intros H; simpl; [reflexivity|].
  inversion H; subst. destruct (Z.eqb_spec x 0); [congruence|].
  rewrite IH by assumption. reflexivity.
Qed.
Lemma is_cstr_nonzero s : is_cstr s -> Forall (fun b => b <> 0%Z) s.
Proof. intros H. eapply Forall_impl; [|exact H]. cbv beta. lia. Qed.

Lemma memcpy_ok {A} (dst : list A) doff src soff n :
  doff + n <= length dst -> soff + n <= length src ->
  memcpy dst doff src soff n = OK (firstn doff dst ++ firstn n (skipn soff src) ++ skipn (doff + n) dst).
Proof.
  intros H1 H2. unfold memcpy.
  destruct (Nat.leb_spec (doff + n) (length dst)), (Nat.leb_spec (soff + n) (length src)); try lia.
  reflexivity.
Qed.
Lemma memcpy_UB {A} (dst : list A) doff src soff n :
  length dst < doff + n \/ length src < soff + n -> memcpy dst doff src soff n = UB.
Proof.
  intros H. unfold memcpy.
  destruct (Nat.leb_spec (doff + n) (length dst)), (Nat.leb_spec (soff + n) (length src)); simpl; try reflexivity; lia.
Qed.

Lemma cget_nth0 s i : i <= length s -> cget s i = OK (nth i s 0%Z).
Proof.
  intros H. destruct (Nat.eq_dec i (length s)) as [->|n].
  - rewrite cget_end, nth_overflow by lia. reflexivity.
  - apply cget_nth. lia.
Qed.
Lemma cget_UB s i : length s < i -> cget s i = UB.
Proof. intros H. apply aget_UB. rewrite app_length. simpl. lia. Qed.

Lemma scan_back_char s p i : i <= length s ->
  exists r, scan_back s p i = OK r /\ r <= i /\
    (forall j, r < j <= i -> p (nth j s 0%Z) = true) /\
    (p (nth r s 0%Z) = false \/ (r = 0 /\ p (nth 0 s 0%Z) = true)).
Proof.
  induction i as [|i IH]; intros Hi; cbn [scan_back]; rewrite cget_nth0 by lia; cbn [bind].
  - destruct (p (nth 0 s 0%Z)) eqn:E; exists 0; repeat split; auto; intros; lia.
  - destruct (p (nth (S i) s 0%Z)) eqn:E.
    + destruct IH as (r & Hr & Hle & H1 & H2); [lia|]. exists r. repeat split; auto.
      intros j Hj. destruct (Nat.eq_dec j (S i)) as [->|n]; [assumption|]. apply H1. lia.
    + exists (S i). repeat split; auto. intros; lia.
Qed.

Lemma scan_char s p i fuel : p 0%Z = false -> i <= length s -> length s - i < fuel ->
  exists r, scan fuel s p i = OK r /\ i <= r <= length s /\
    (forall j, i <= j < r -> p (nth j s 0%Z) = true) /\ p (nth r s 0%Z) = false.
Proof.
  intros H0. revert i; induction fuel as [|fuel IH]; intros i Hi Hf; [lia|].
  cbn [scan]. rewrite cget_nth0 by lia. cbn [bind].
  destruct (p (nth i s 0%Z)) eqn:E.
  - assert (i <> length s) by (intros ->; rewrite nth_overflow in E by lia; congruence).
    destruct (IH (i + 1)) as (r & Hr & Hb & H1 & H2); [lia|lia|].
    exists r. repeat split; auto; try lia.
    intros j Hj. destruct (Nat.eq_dec j i) as [->|n]; [assumption|]. apply H1. lia.
  - exists i. repeat split; auto; lia.
Qed.
