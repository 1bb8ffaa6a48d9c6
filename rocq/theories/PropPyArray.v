(** * C87, C88: arrays and strings in Python, and the sequence protocol *)
From Verif Require Import CBase CBaseFacts KeyTableModel CppKeyModel PyArrayModel PyArraySpec.

(** ** C87: comparisons and elements *)

Lemma bytes_equal_spec p q x y : length p = length q -> (Z.of_nat (length p) < 2 ^ 64)%Z -> forall fuel r i, length p - i < fuel -> i <= length p -> r = skipn i p ->
  bytes_equal_from fuel (p ++ [x]) (q ++ [y]) i = OK (Gives (if list_eq_dec Z.eq_dec r (skipn i q) then true else false)).
Proof.
  intros L B. assert (U : u64 (Z.of_nat (length (p ++ [x])) - 1) = Z.of_nat (length p)) by (unfold u64; rewrite app_length; cbn [length]; rewrite Z.mod_small by lia; lia).
  induction fuel as [|fuel IH]; intros r i Lf Li Er; [lia|]. cbn [bytes_equal_from]. rewrite U. destruct (Z.ltb_spec (Z.of_nat i) (Z.of_nat (length p))) as [H|H].
  - destruct (nth_error p i) as [a|] eqn:Ea; [|apply nth_error_None in Ea; lia]. destruct (nth_error q i) as [b|] eqn:Eb; [|apply nth_error_None in Eb; lia].
    unfold array_at. rewrite !nth_error_app1 by lia. rewrite Ea, Eb.
    assert (Sp : forall (l : list Z) i c, nth_error l i = Some c -> skipn i l = c :: skipn (S i) l).
    { clear. intros l. induction l as [|z l IH]; intros [|i] c Q; cbn in *; try discriminate; [congruence|apply IH; exact Q]. }
    rewrite (Sp _ _ _ Ea) in Er. subst r. rewrite (Sp _ _ _ Eb). destruct (Z.eqb_spec a b) as [->|N]; cbn [negb].
    + replace (i + 1) with (S i) by lia. rewrite (IH (skipn (S i) p) (S i)) by (auto; lia). do 2 f_equal.
      destruct (list_eq_dec Z.eq_dec (skipn (S i) p) (skipn (S i) q)) as [->|N]; destruct (list_eq_dec Z.eq_dec (b :: _) (b :: _)) as [E|E]; congruence.
    + destruct (list_eq_dec Z.eq_dec (a :: _) (b :: _)) as [E|E]; [congruence|reflexivity].
  - assert (i = length p) by lia. subst i r. rewrite skipn_all2 by lia. rewrite skipn_all2 by lia. reflexivity.
Qed.

(** A text is equal to a str if all bytes agree (partial: the last bytes are
    not looked at). *)
Theorem C87_str_exact : forall (E : Type) p q x y, (Z.of_nat (length p) < 2 ^ 64)%Z -> exists r, bytes_equal (p ++ [x]) (@OStr E (q ++ [y])) = OK (Gives r) /\ (r = true <-> p = q).
Proof.
  intros E p q x y B. unfold bytes_equal. rewrite !app_length. cbn [length]. destruct (Nat.eqb_spec (length p + 1) (length q + 1)) as [L|L]; cbn [negb].
  - rewrite (bytes_equal_spec p q x y ltac:(lia) B _ p 0) by (auto; lia). cbn [skipn]. eexists. split; [reflexivity|]. destruct (list_eq_dec Z.eq_dec p q); split; congruence.
  - eexists. split; [reflexivity|]. split; [discriminate|]. intros ->. lia.
Qed.
Theorem C87_str_partial : forall (E : Type) a b, a <> [] -> (Z.of_nat (length a) < 2 ^ 64)%Z ->
  (a = b -> bytes_equal a (@OStr E b) = OK (Gives true)) /\
  (length a <> length b -> bytes_equal a (@OStr E b) = OK (Gives false)) /\
  (forall i, i < length a - 1 -> nth_error a i <> nth_error b i -> bytes_equal a (@OStr E b) = OK (Gives false)).
Proof.
  intros E a b Na B. destruct (exists_last Na) as (p & x & ->). rewrite app_length in B. cbn [length] in B.
  split; [intros <-; destruct (C87_str_exact E p p x x ltac:(lia)) as (r & -> & R); rewrite (proj2 R eq_refl); reflexivity|]. split.
  - intros L. unfold bytes_equal. destruct (Nat.eqb_spec (length (p ++ [x])) (length b)); [congruence|reflexivity].
  - intros i Hi Nn. rewrite app_length in Hi. cbn [length] in Hi. destruct b as [|z b'] eqn:Eb; [unfold bytes_equal; rewrite app_length; cbn [length]; replace (length p + 1 =? 0) with false by (symmetry; apply Nat.eqb_neq; lia); reflexivity|].
    rewrite <- Eb in *. destruct (exists_last (l := b)) as (q & y & ->); [subst b; discriminate|]. destruct (C87_str_exact E p q x y ltac:(lia)) as ([] & -> & R); [|reflexivity].
    exfalso. pose proof (proj1 R eq_refl) as ->. rewrite !nth_error_app1 in Nn by lia. congruence.
Qed.
(** The last byte does not count, *)
Theorem C87_last_refuted : forall (E : Type) p x y, (Z.of_nat (length p) < 2 ^ 64)%Z -> bytes_equal (p ++ [x]) (@OStr E (p ++ [y])) = OK (Gives true).
Proof. intros E p x y B. destruct (C87_str_exact E p p x y B) as (r & -> & R). rewrite (proj2 R eq_refl). reflexivity. Qed.
(** the comparison of two empty texts raises, a text is never equal to a list,
    and no array is equal to an array, not even to itself. *)
Theorem C87_empty_refuted : forall E, bytes_equal [] (@OStr E []) = OK (Raises IndexError).
Proof. reflexivity. Qed.
Theorem C87_list_refuted : forall (E : Type) a l, bytes_equal a (@OList E l) = OK (Gives false).
Proof. reflexivity. Qed.
Theorem C87_self_refuted : forall (E : Type) eqb (a : list E) b, values_equal eqb a OOther = OK (Gives false) /\ bytes_equal b (@OOther E) = OK (Gives false).
Proof. split; reflexivity. Qed.

Lemma values_equal_spec l a : length a = length l -> forall fuel i, length a - i < fuel -> i <= length a ->
  values_equal_from Z.eqb fuel a (map Some l) i = OK (Gives (if list_eq_dec Z.eq_dec (skipn i a) (skipn i l) then true else false)).
Proof.
  intros L. induction fuel as [|fuel IH]; intros i Lf Li; [lia|]. cbn [values_equal_from]. destruct (Nat.ltb_spec i (length a)) as [H|H].
  - destruct (nth_error a i) as [x|] eqn:Ea; [|apply nth_error_None in Ea; lia]. destruct (nth_error l i) as [y|] eqn:Eb; [|apply nth_error_None in Eb; lia].
    unfold aget. rewrite (map_nth_error Some i l Eb). cbn [bind]. unfold array_at. rewrite Ea.
    assert (Sp : forall (l : list Z) i c, nth_error l i = Some c -> skipn i l = c :: skipn (S i) l).
    { clear. intros l. induction l as [|z l IH]; intros [|i] c Q; cbn in *; try discriminate; [congruence|apply IH; exact Q]. }
    rewrite (Sp _ _ _ Ea), (Sp _ _ _ Eb). destruct (Z.eqb_spec x y) as [->|N]; cbn [negb].
    + replace (i + 1) with (S i) by lia. rewrite IH by lia. do 2 f_equal. destruct (list_eq_dec Z.eq_dec (skipn (S i) a) (skipn (S i) l)) as [->|N]; destruct (list_eq_dec Z.eq_dec (y :: _) (y :: _)) as [E|E]; congruence.
    + destruct (list_eq_dec Z.eq_dec (x :: _) (y :: _)) as [E|E]; [congruence|reflexivity].
  - rewrite !skipn_all2 by lia. reflexivity.
Qed.
(** An array of integers is equal to a list or tuple with the same values. *)
Theorem C87_values : forall a l, exists r, values_equal Z.eqb a (OList (map Some l)) = OK (Gives r) /\ (r = true <-> a = l).
Proof.
  intros a l. unfold values_equal. rewrite map_length. destruct (Nat.eqb_spec (length a) (length l)) as [L|L]; cbn [negb].
  - rewrite (values_equal_spec l a L) by lia. cbn [skipn]. eexists. split; [reflexivity|]. destruct (list_eq_dec Z.eq_dec a l); split; congruence.
  - eexists. split; [reflexivity|]. split; [discriminate|]. intros ->. lia.
Qed.

(** *** Order *)
Fixpoint lcmp (a b : list Z) : Z :=
  match a, b with
  | x :: a, y :: b => if negb (x =? y)%Z then if (x <? y)%Z then (-1)%Z else 1%Z else if (x =? NUL)%Z then 0%Z else lcmp a b
  | _, _ => 0%Z
  end.
Lemma strncmp_lcmp : forall n a b p q, n = Nat.min (length a) (length b) -> length p = length q -> strncmp (p ++ a) (q ++ b) n (length p) = OK (lcmp a b).
Proof.
  induction n as [|n IH]; intros a b p q En L.
  - destruct a; [reflexivity|]. destruct b; [reflexivity|]. cbn in En. discriminate.
  - destruct a as [|x a]; [discriminate|]. destruct b as [|y b]; [discriminate|]. cbn [length] in En. cbn [strncmp lcmp].
    assert (A : forall (u : list Z) c v k, k = length u -> aget (u ++ c :: v) k = OK c) by (intros u c v k ->; unfold aget; rewrite nth_error_app2, Nat.sub_diag by lia; reflexivity).
    rewrite (A p x a) by reflexivity. cbn [bind]. rewrite (A q y b) by exact L. cbn [bind]. destruct (negb (x =? y)%Z); [reflexivity|]. destruct (x =? NUL)%Z; [reflexivity|].
    replace (length p + 1) with (length (p ++ [x])) by (rewrite app_length; reflexivity). replace (p ++ x :: a) with ((p ++ [x]) ++ a) by (rewrite <- app_assoc; reflexivity).
    replace (q ++ y :: b) with ((q ++ [y]) ++ b) by (rewrite <- app_assoc; reflexivity). apply IH; [lia|]. rewrite !app_length. cbn. lia.
Qed.
Lemma lcmp_before : forall a b, (lcmp a b < 0)%Z <-> before a b.
Proof.
  induction a as [|x a IH]; intros b.
  - cbn. split; [lia|]. intros (p & x & y & a' & b' & E & _). destruct p; discriminate.
  - destruct b as [|y b]; [cbn; split; [lia|]; intros (p & ? & z & a' & b' & _ & E & _); destruct p; discriminate|]. cbn [lcmp].
    destruct (Z.eqb_spec x y) as [->|N]; cbn [negb].
    + destruct (Z.eqb_spec y NUL) as [->|Ny].
      * split; [lia|]. intros (p & u & v & a' & b' & Ea & Eb & Np & Lt). destruct p as [|c p]; cbn in Ea, Eb; [injection Ea as <- _; injection Eb as <- _; lia|].
        injection Ea as <- _. exfalso. apply Np. left. reflexivity.
      * rewrite IH. split.
        -- intros (p & u & v & a' & b' & -> & -> & Np & Lt). exists (y :: p), u, v, a', b'. repeat split; auto. intros [Q|Q]; [congruence|exact (Np Q)].
        -- intros (p & u & v & a' & b' & Ea & Eb & Np & Lt). destruct p as [|c p]; cbn in Ea, Eb; [injection Ea as <- _; injection Eb as <- _; lia|].
           injection Ea as <- ->. injection Eb as ->. exists p, u, v, a', b'. repeat split; auto. intros Q. apply Np. right. exact Q.
    + destruct (Z.ltb_spec x y) as [H|H].
      * split; [intros _|lia]. exists [], x, y, a, b. repeat split; auto.
      * split; [lia|]. intros (p & u & v & a' & b' & Ea & Eb & Np & Lt). destruct p as [|c p]; cbn in Ea, Eb; injection Ea as -> _; injection Eb as -> _; [lia|congruence].
Qed.
Lemma lcmp_opp : forall a b, lcmp b a = (- lcmp a b)%Z.
Proof.
  induction a as [|x a IH]; intros [|y b]; cbn [lcmp]; try reflexivity. rewrite (Z.eqb_sym y x). destruct (Z.eqb_spec x y) as [->|N]; cbn [negb].
  - destruct (y =? NUL)%Z; [reflexivity|apply IH].
  - destruct (Z.ltb_spec x y), (Z.ltb_spec y x); lia.
Qed.
(** [<] and [>] are the order of texts, except for texts that begin with each
    other. *)
Theorem C87_order_partial : forall a b, exists l g, bytes_less a b = OK l /\ bytes_greater a b = OK g /\ (l = true <-> before a b) /\ (g = true <-> before b a).
Proof.
  intros a b. unfold bytes_less, bytes_greater. pose proof (lcmp_before a b) as H1. pose proof (lcmp_before b a) as H2. rewrite (lcmp_opp a b) in H2.
  destruct (Nat.leb_spec (length a) (length b)) as [L|L].
  - pose proof (strncmp_lcmp (length a) a b [] [] ltac:(lia) eq_refl) as Q. cbn [app length] in Q. rewrite Q. cbn [bind]. do 2 eexists. split; [reflexivity|]. split; [reflexivity|]. rewrite <- H1, <- H2. lia.
  - pose proof (strncmp_lcmp (length b) b a [] [] ltac:(lia) eq_refl) as Q. cbn [app length] in Q. rewrite Q, (lcmp_opp a b). cbn [bind]. do 2 eexists. split; [reflexivity|]. split; [reflexivity|]. rewrite <- H1, <- H2. lia.
Qed.
(** Then neither is smaller, although they are different. *)
Theorem C87_prefix_refuted : forall p q, ~ In NUL p -> bytes_less p (p ++ q) = OK false /\ bytes_greater p (p ++ q) = OK false.
Proof.
  intros p q N. destruct (C87_order_partial p (p ++ q)) as (l & g & -> & -> & Hl & Hg).
  assert (Z0 : lcmp p (p ++ q) = 0%Z).
  { clear Hl Hg. induction p as [|x p IH]; [reflexivity|]. cbn [app lcmp]. rewrite Z.eqb_refl. cbn [negb]. destruct (Z.eqb_spec x NUL); [exfalso; apply N; left; assumption|]. apply IH. intros I. apply N. right. exact I. }
  rewrite <- lcmp_before in Hl, Hg. rewrite (lcmp_opp p (p ++ q)) in Hg. rewrite Z0 in Hl, Hg. destruct l, g; split; try reflexivity; exfalso; lia.
Qed.

(** *** Elements *)
Theorem C87_getitem : forall (E : Type) (a : list E) i, array_getitem a i = match nth_error a i with Some x => Gives x | None => Raises IndexError end.
Proof. intros. unfold array_getitem, array_at. destruct (nth_error a i); reflexivity. Qed.
Theorem C87_setitem_partial : forall a i c, (0 <= c < 128)%Z -> i < length a -> exists a', chars_setitem a i [c] = OK (Gives a') /\
  nth_error a' i = Some c /\ length a' = length a /\ forall j, j <> i -> nth_error a' j = nth_error a j.
Proof.
  intros a i c R L. unfold chars_setitem, str_len. cbn [filter]. replace (begins_char c) with true by (unfold begins_char; lia). cbn [length Nat.eqb nth_error].
  unfold array_at. destruct (nth_error a i) as [x|] eqn:E; [|apply nth_error_None in E; lia].
  assert (G : exists a', aset a i c = OK a' /\ nth_error a' i = Some c /\ length a' = length a /\ forall j, j <> i -> nth_error a' j = nth_error a j).
  { clear E x. revert i L. induction a as [|y a IH]; intros i L; [cbn in L; lia|]. destruct i as [|i]; cbn [aset].
    - eexists. split; [reflexivity|]. split; [reflexivity|]. split; [reflexivity|]. intros [|j] N; [congruence|reflexivity].
    - destruct (IH i) as (a' & Q & A & B & C); [cbn in L; lia|]. rewrite Q. cbn [bind]. eexists. split; [reflexivity|]. split; [exact A|]. split; [cbn; lia|].
      intros [|j] N; [reflexivity|]. cbn. apply C. lia. }
  destruct G as (a' & Q & G). rewrite Q. cbn [bind]. exists a'. split; [reflexivity|exact G].
Qed.
(** The empty str and one that begins with two ASCII characters are rejected, an index behind the end too. *)
Theorem C87_setitem_length : forall a i t, (forall c, t <> [c]) -> (forall c r, t = c :: r -> (0 <= c < 128)%Z /\ exists d u, r = d :: u /\ (0 <= d < 128)%Z) -> chars_setitem a i t = OK (Raises ValueError).
Proof.
  intros a i t N H. unfold chars_setitem, str_len. destruct t as [|c r]; [reflexivity|]. destruct (H _ _ eq_refl) as (Hc & d & u & -> & Hd). cbn [filter].
  replace (begins_char c) with true by (unfold begins_char; lia). replace (begins_char d) with true by (unfold begins_char; lia). reflexivity.
Qed.
Theorem C87_setitem_range : forall a i c, (0 <= c < 128)%Z -> length a <= i -> exists e, chars_setitem a i [c] = OK (Raises e).
Proof.
  intros a i c R L. unfold chars_setitem, str_len. cbn [filter]. replace (begins_char c) with true by (unfold begins_char; lia). cbn [length Nat.eqb nth_error]. unfold array_at. rewrite (proj2 (nth_error_None a i) L). eauto.
Qed.
(** Of a character of several bytes only the first one is stored. *)
Theorem C87_setitem_refuted : forall a i, i < length a -> exists a', chars_setitem a i [195; 164]%Z = OK (Gives a') /\ nth_error a' i = Some 195%Z /\ length a' = length a.
Proof.
  intros a i L.
  unfold chars_setitem. change (str_len [195; 164]%Z =? 1) with true. cbn [nth_error]. unfold array_at. destruct (nth_error a i) as [x|] eqn:E; [|apply nth_error_None in E; lia].
  clear E x. revert i L. induction a as [|y a IH]; intros i L; [cbn in L; lia|]. destruct i as [|i]; cbn [aset].
  - eexists. split; [reflexivity|]. split; reflexivity.
  - destruct (IH i) as (a' & Q & A & B); [cbn in L; lia|]. destruct (aset a i 195%Z) as [r| |]; cbn [bind] in *; try discriminate. injection Q as ->. eexists. split; [reflexivity|]. split; [exact A|cbn; lia].
Qed.

(** A new array has room for its elements ... *)
Theorem C87_new_partial : forall sz size index, (0 < sz)%Z -> (0 <= index < size)%Z -> (size * sz < 2 ^ 64)%Z -> new_access sz size index = OK (Gives tt).
Proof.
  intros sz size index S0 I B. unfold new_access, new_block, u64. destruct (Z.ltb_spec index size); [|lia]. rewrite Z.mod_small by nia.
  destruct (Z.leb_spec ((index + 1) * sz) (size * sz)); [reflexivity|nia].
Qed.
(** ... unless the number of bytes wraps around. *)
Theorem C87_new_refuted : new_access 8 (2 ^ 61 + 1) 1 = UB.
Proof. vm_compute. reflexivity. Qed.

Example C87_case : bytes_equal (bs "part 1") (@OStr Z (bs "part 2")) = OK (Gives true) /\ bytes_equal (bs "part 1") (@OStr Z (bs "pard 1")) = OK (Gives false) /\
  bytes_less (bs "abc") (bs "abd") = OK true /\ bytes_less (bs "ab") (bs "abc") = OK false /\ bytes_greater (bs "abc") (bs "ab") = OK false /\
  values_equal Z.eqb [1; 2]%Z (OList [Some 1; Some 2]%Z) = OK (Gives true) /\ values_equal Z.eqb [1; 2]%Z (OList [Some 1; None]%Z) = OK (Raises CastError).
Proof. vm_compute. repeat split. Qed.

(** ** C88: iteration *)

Lemma py_list_spec {A} (get : nat -> res (pyres A)) (l : list A) e : (forall i, get i = OK (match nth_error l i with Some x => Gives x | None => Raises e end)) ->
  forall r i fuel, r = skipn i l -> i <= length l -> length r < fuel -> py_list fuel get i = OK (match e with IndexError => Gives r | _ => Raises e end).
Proof.
  intros G. induction r as [|x r IH]; intros i fuel Er Li Lf; (destruct fuel as [|fuel]; [cbn in Lf; lia|]); cbn [py_list]; rewrite G.
  - assert (length l - i = 0) by (rewrite <- skipn_length, <- Er; reflexivity). assert (N : nth_error l i = None) by (apply nth_error_None; lia). rewrite N. cbn [bind]. destruct e; reflexivity.
  - assert (N : nth_error l i = Some x). { rewrite <- (firstn_skipn i l), <- Er, nth_error_app2; rewrite firstn_length, Nat.min_l by lia; [rewrite Nat.sub_diag; reflexivity|lia]. }
    rewrite N. cbn [bind]. rewrite (IH (i + 1)); [destruct e; reflexivity| | |cbn in Lf; lia].
    + replace (i + 1) with (S i) by lia. clear - Er. revert i Er. induction l as [|y l IH]; intros [|i] Er; cbn in *; try discriminate; [injection Er as _ ->; reflexivity|apply IH; exact Er].
    + apply nth_error_Some_lt in N || (assert (i < length l) by (apply nth_error_Some; congruence)); lia.
Qed.

(** Iterating over an array in Python yields its elements. *)
Theorem C88_arrays : forall (E : Type) (a : list E), py_list (length a + 1) (fun i => OK (array_getitem a i)) 0 = OK (Gives a).
Proof.
  intros E a. rewrite (py_list_spec _ a IndexError) with (r := a); [reflexivity| |reflexivity|lia|lia]. intros i. rewrite C87_getitem. reflexivity.
Qed.

Lemma keyword_getitem_spec k i : keyword_getitem k i = OK (match nth_error (kw_cards k) i with Some x => Gives x | None => Raises RuntimeError end).
Proof.
  unfold keyword_getitem, of_call, keyword_at. destruct (Nat.eqb_spec (length (kw_cards k)) 0) as [Q|Q]; cbn [orb].
  - destruct (nth_error (kw_cards k) i) eqn:N; [|reflexivity]. assert (i < length (kw_cards k)) by (apply nth_error_Some; congruence). lia.
  - destruct (Nat.ltb_spec (length (kw_cards k) - 1) i) as [L|L].
    + destruct (nth_error (kw_cards k) i) eqn:N; [|reflexivity]. assert (i < length (kw_cards k)) by (apply nth_error_Some; congruence). lia.
    + unfold aget. destruct (nth_error (kw_cards k) i) eqn:N; [reflexivity|]. apply nth_error_None in N. lia.
Qed.
Lemma slice_getitem_spec pre run post i : slice_getitem (pre ++ run ++ post) (length pre, length run) i = OK (match nth_error run i with Some x => Gives x | None => Raises RuntimeError end).
Proof.
  unfold slice_getitem, of_call, slice_at. cbn [fst snd]. destruct (Nat.eqb_spec (length run) 0) as [Q|Q]; cbn [orb].
  - destruct (nth_error run i) eqn:N; [|reflexivity]. assert (i < length run) by (apply nth_error_Some; congruence). lia.
  - destruct (Nat.ltb_spec (length run - 1) i) as [L|L].
    + destruct (nth_error run i) eqn:N; [|reflexivity]. assert (i < length run) by (apply nth_error_Some; congruence). lia.
    + unfold aget. rewrite nth_error_app2 by lia. replace (length pre + i - length pre) with i by lia. rewrite nth_error_app1 by lia. destruct (nth_error run i) eqn:N; [reflexivity|]. apply nth_error_None in N. lia.
Qed.

(** With an index from 0 to len() - 1 the cards of a keyword and the keywords
    of a slice are found. *)
Theorem C88_index_partial : (forall k i c, nth_error (kw_cards k) i = Some c -> keyword_getitem k i = OK (Gives c)) /\
  (forall pre run post i k, nth_error run i = Some k -> slice_getitem (pre ++ run ++ post) (length pre, length run) i = OK (Gives k)).
Proof. split; [intros k i c N; rewrite keyword_getitem_spec, N; reflexivity|intros pre run post i k N; rewrite slice_getitem_spec, N; reflexivity]. Qed.
(** Iterating over them ends with an exception. *)
Theorem C88_iteration_refuted : (forall k, py_list (length (kw_cards k) + 1) (keyword_getitem k) 0 = OK (Raises RuntimeError)) /\
  (forall pre run post, py_list (length run + 1) (slice_getitem (pre ++ run ++ post) (length pre, length run)) 0 = OK (Raises RuntimeError)).
Proof.
  split.
  - intros k. rewrite (py_list_spec _ (kw_cards k) RuntimeError) with (r := kw_cards k); [reflexivity|apply keyword_getitem_spec|reflexivity|lia|lia].
  - intros pre run post. rewrite (py_list_spec _ run RuntimeError) with (r := run); [reflexivity|apply slice_getitem_spec|reflexivity|lia|lia].
Qed.

Example C88_case : py_list 3 (fun i => OK (array_getitem [5; 7]%Z i)) 0 = OK (Gives [5; 7]%Z) /\
  py_list 3 (keyword_getitem {| kw_name := bs "NODE"; kw_cards := [bs "1"; bs "2"] |}) 0 = OK (Raises RuntimeError) /\
  keyword_getitem {| kw_name := bs "NODE"; kw_cards := [bs "1"; bs "2"] |} 1 = OK (Gives (bs "2")).
Proof. vm_compute. repeat split. Qed.

Print Assumptions C87_str_exact.
Print Assumptions C87_values.
Print Assumptions C87_order_partial.
Print Assumptions C88_arrays.
Print Assumptions C88_iteration_refuted.
