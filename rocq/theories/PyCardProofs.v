(** * Proofs about the Python class Card *)
From Coq Require Import QArith Qpower.
From Verif Require Import CBase CBaseFacts StringModel StringProofs CardModel CardSpec CardProofs CardFloat CardType KeyTableModel CppKeyModel CppKeySpec CppKeyProofs PropCard PyCardModel PyCardSpec.
Open Scope nat_scope.
Open Scope list_scope.

Lemma parse_int64 s cur w z : in_card s cur w -> int_text (field s cur w) z -> int64 z -> parse_int TI64 s cur w = OK (Returns z).
Proof. intros C T M. apply (parse_int_text TI64 s cur w z C T M). unfold int64 in M. cbn [in_range]. lia. Qed.

(** A field that denotes something is parsed as that. *)
Lemma py_parse_means s cur w v : in_card s cur w -> py_means (field s cur w) v ->
  exists v', py_parse Qarith true s cur w = OK (Returns v') /\ py_means (field s cur w) v'.
Proof.
  intros C M. unfold py_parse. destruct (is_empty_spec s cur w C) as (e & -> & E). cbn [bind]. destruct e.
  - exists PNone. split; [reflexivity|]. constructor. apply E. reflexivity.
  - assert (B : ~ blanks (field s cur w)) by (intros B; apply E in B; discriminate).
    inversion M as [X|z T X I|sg ip fr ex q T X Q|u X1 X2 X3 X]; subst.
    + contradiction.
    + rewrite (type_int_complete s cur w C T). cbn [bind]. rewrite (parse_int64 s cur w z C X I). cbn [bind]. exists (PInt z). split; [reflexivity|]. constructor; assumption.
    + rewrite (type_float_complete s cur w C T). cbn [bind]. rewrite (float_accept Qarith s cur w sg ip fr ex C X). cbn [bind fst]. eexists. split; [reflexivity|].
      apply (PM_float _ sg ip fr ex (fvalue Qarith sg ip fr ex)); [exact T|exact X|apply fvalue_Q].
    + destruct (C15_type_meaning s cur w C) as (ty & -> & Ti & Tf). cbn [bind]. destruct ty; [|exfalso; tauto|exfalso; tauto].
      destruct C as (Hs & Hc & Hw). destruct (string_width_spec s cur w) as (buf & u' & -> & Q & T'); [split; auto; split; auto; lia|]. cbn [bind]. rewrite Q. cbn [bind].
      eexists. split; [reflexivity|]. constructor; auto.
Qed.

Lemma column_S ws k : k < length ws -> column ws (S k) = column ws k + nth k ws 0.
Proof.
  unfold column. revert k. induction ws as [|w ws IH]; intros [|k] L; cbn [length] in L; try lia.
  - cbn. lia.
  - cbn [firstn nth]. change (list_sum (?a :: ?l)) with (a + list_sum l). specialize (IH k ltac:(lia)). unfold list_sum in *. cbn [fold_right firstn] in *. lia.
Qed.
Lemma column_mono ws j k : j <= k -> column ws j <= column ws k.
Proof.
  intros L. induction L as [|k L IH]; [lia|]. destruct (Nat.lt_ge_cases k (length ws)) as [H|H].
  - rewrite (column_S ws k H). lia.
  - unfold column in *. rewrite (firstn_all2 (n := S k)) by lia. rewrite (firstn_all2 (n := k)) in IH by lia. exact IH.
Qed.

Lemma next_min0 s p w : is_cstr s -> p + w < 255 -> (p < length s -> p + w <= length s) ->
  card_parse_next_width s (Nat.min p (length s)) w = OK (Nat.min (p + w) (length s)).
Proof.
  intros Hs B L. unfold card_parse_next_width. rewrite cget_nth0 by lia. cbn [bind]. unfold NUL.
  destruct (Nat.lt_ge_cases p (length s)) as [H|H].
  - rewrite Nat.min_l by lia. pose proof (cstr_nth_range s p Hs H). destruct (Z.eqb_spec (nth p s 0%Z) 0); [lia|]. cbn [negb].
    destruct (Nat.leb_spec p (255 - w)); [|lia]. rewrite Nat.min_l by lia. reflexivity.
  - rewrite !Nat.min_r by lia. rewrite nth_overflow by lia. reflexivity.
Qed.
Lemma next_in s p w : is_cstr s -> p < length s -> p + w < 255 -> card_parse_next_width s p w = OK (p + w).
Proof.
  intros Hs L B. unfold card_parse_next_width. rewrite cget_nth0 by lia. cbn [bind]. unfold NUL. pose proof (cstr_nth_range s p Hs L).
  destruct (Z.eqb_spec (nth p s 0%Z) 0); [lia|]. cbn [negb]. destruct (Nat.leb_spec p (255 - w)); [reflexivity|lia].
Qed.
Lemma next_past s p w : length s < p -> card_parse_next_width s p w = UB.
Proof. intros L. unfold card_parse_next_width. rewrite cget_UB by lia. reflexivity. Qed.

(** One field of the card at column [p]. *)
Lemma py_field s p w v : is_cstr s -> p + w < 255 -> py_means (field s p w) v ->
  exists v', py_parse Qarith true s (Nat.min p (length s)) w = OK (Returns v') /\ py_means (field s p w) v'.
Proof. intros Hs B M. rewrite <- (field_min s p) in *. apply (py_parse_means s (Nat.min p (length s)) w v); [split; [exact Hs|split; lia]|exact M]. Qed.

(** The first fields. *)
Lemma py_prefix s ws : is_cstr s -> column ws (length ws) < 255 -> forall n k0, k0 + n <= length ws ->
  (forall k, k0 <= k < k0 + n -> exists v, py_means (field_at s ws k) v) ->
  (forall k, k0 <= k < k0 + n -> column ws k < length s -> column ws (S k) <= length s) ->
  exists vs, length vs = n /\ (forall i, i < n -> exists v, nth_error vs i = Some v /\ py_means (field_at s ws (k0 + i)) v) /\
    py_whole_from Qarith s (skipn k0 ws) (Nat.min (column ws k0) (length s)) =
    (do r <- py_whole_from Qarith s (skipn (k0 + n) ws) (Nat.min (column ws (k0 + n)) (length s));
     OK (match r with Returns vs2 => Returns (vs ++ vs2) | Throws => Throws end)).
Proof.
  intros Hs B. induction n as [|n IH]; intros k0 L M F.
  - exists []. split; [reflexivity|]. split; [intros i H; lia|]. rewrite Nat.add_0_r.
    destruct (py_whole_from Qarith s (skipn k0 ws) _) as [[|]| |]; reflexivity.
  - destruct (IH (S k0)) as (vs & Lv & Mv & Q); [lia|intros k H; apply M; lia|intros k H; apply F; lia|].
    destruct (M k0 ltac:(lia)) as (v & M0). pose proof (column_S ws k0 ltac:(lia)) as St. pose proof (column_mono ws (S k0) (length ws) ltac:(lia)) as Mo.
    destruct (py_field s (column ws k0) (nth k0 ws 0) v Hs ltac:(lia) M0) as (v' & O & M').
    exists (v' :: vs). split; [cbn [length]; lia|]. split.
    + intros [|i] H; [exists v'; rewrite Nat.add_0_r; split; [reflexivity|exact M']|]. replace (k0 + S i) with (S k0 + i) by lia. apply Mv. lia.
    + assert (Sk : skipn k0 ws = nth k0 ws 0 :: skipn (S k0) ws).
      { clear - L. revert k0 L. induction ws as [|w ws IH]; intros k0 L; cbn [length] in L; [lia|]. destruct k0 as [|k0]; [reflexivity|]. cbn [skipn nth]. apply IH. lia. }
      rewrite Sk. cbn [py_whole_from]. rewrite O. cbn [bind]. rewrite (next_min0 s (column ws k0) (nth k0 ws 0) Hs ltac:(lia)).
      2:{ intros H. specialize (F k0 ltac:(lia) H). lia. }
      cbn [bind]. rewrite <- St, Q. replace (k0 + S n) with (S k0 + n) by lia.
      destruct (py_whole_from Qarith s (skipn (S k0 + n) ws) _) as [[|]| |]; reflexivity.
Qed.

Lemma py_parse_past s p w : length s < p -> 0 < w -> py_parse Qarith true s p w = UB.
Proof. intros L W. unfold py_parse. rewrite empty_past by assumption. reflexivity. Qed.
Lemma py_whole_past s p w ws : length s < p -> py_whole_from Qarith s (w :: ws) p = UB.
Proof.
  intros L. cbn [py_whole_from]. destruct (Nat.eq_dec w 0) as [->|N].
  - unfold py_parse. assert (Q : card_parse_is_empty_width s p 0 = OK true).
    { unfold card_parse_is_empty_width. change FUEL with (S 599). generalize 599. intros n. rewrite Nat.add_0_r, Nat.ltb_irrefl. reflexivity. }
    rewrite Q. cbn [bind]. rewrite next_past by exact L. reflexivity.
  - rewrite py_parse_past by lia. reflexivity.
Qed.

(** Without widths. *)
Lemma py_default s : is_cstr s -> length s < 255 -> forall n k0 fuel, 10 * (k0 + n) <= length s -> n <= fuel ->
  (forall k, k0 <= k < k0 + n -> exists v, py_means (field s (10 * k) 10) v) ->
  exists vs, length vs = n /\ (forall i, i < n -> exists v, nth_error vs i = Some v /\ py_means (field s (10 * (k0 + i)) 10) v) /\
    py_whole_default Qarith fuel s (10 * k0) =
    (do r <- py_whole_default Qarith (fuel - n) s (10 * (k0 + n));
     OK (match r with Returns vs2 => Returns (vs ++ vs2) | Throws => Throws end)).
Proof.
  intros Hs B. induction n as [|n IH]; intros k0 fuel L Lf M.
  - exists []. split; [reflexivity|]. split; [intros i H; lia|]. rewrite Nat.add_0_r, Nat.sub_0_r.
    destruct (py_whole_default Qarith fuel s (10 * k0)) as [[|]| |]; reflexivity.
  - destruct fuel as [|fuel]; [lia|]. destruct (IH (S k0) fuel) as (vs & Lv & Mv & Q); [lia|lia|intros k H; apply M; lia|].
    destruct (M k0 ltac:(lia)) as (v & M0).
    assert (C : in_card s (10 * k0) 10) by (split; [exact Hs|split; lia]).
    destruct (py_parse_means s (10 * k0) 10 v C M0) as (v' & O & M'). exists (v' :: vs). split; [cbn [length]; lia|]. split.
    + intros [|i] H; [exists v'; rewrite Nat.add_0_r; split; [reflexivity|exact M']|]. replace (k0 + S i) with (S k0 + i) by lia. apply Mv. lia.
    + cbn [py_whole_default]. unfold card_parse_done. rewrite cget_nth0 by lia. cbn [bind]. unfold NUL. pose proof (cstr_nth_range s (10 * k0) Hs ltac:(lia)).
      destruct (Z.eqb_spec (nth (10 * k0) s 0%Z) 0); [lia|]. unfold DEFAULT_VALUE_WIDTH. rewrite O. cbn [bind]. rewrite (next_in s (10 * k0) 10 Hs ltac:(lia) ltac:(lia)). cbn [bind].
      replace (10 * k0 + 10) with (10 * S k0) by lia. rewrite Q. cbn [Nat.sub]. replace (k0 + S n) with (S k0 + n) by lia.
      destruct (py_whole_default Qarith (fuel - n) s (10 * (S k0 + n))) as [[|]| |]; reflexivity.
Qed.
