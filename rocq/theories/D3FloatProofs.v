(** * Proofs about the single precision readers: the conversion *)
From Verif Require Import CBase CBaseFacts BinModel D3BufModel D3BufSpec D3BufProofs D3Model D3Spec D3ReadModel D3ReadSpec D3ReadProofs D3FloatModel D3FloatSpec.
Open Scope Z_scope.

(** ** Rounding to an integer *)
Lemma multiple_far q r d k : 0 <= r < d -> (k <= q /\ Z.abs (k * d - (q * d + r)) = (q - k) * d + r) \/ (q + 1 <= k /\ Z.abs (k * d - (q * d + r)) = (k - q - 1) * d + (d - r)).
Proof. intros B. destruct (Z_le_gt_dec k q); [left|right]; (split; [lia|]); [rewrite Z.abs_neq by nia; ring|rewrite Z.abs_eq by nia; ring]. Qed.
Lemma round_even_cases v d : 0 < d -> exists q r, v = q * d + r /\ 0 <= r < d /\
  ((2 * r < d /\ round_even v d = q) \/ (d < 2 * r /\ round_even v d = q + 1) \/ (2 * r = d /\ Z.even q = true /\ round_even v d = q) \/ (2 * r = d /\ Z.even q = false /\ round_even v d = q + 1)).
Proof.
  intros D. exists (v / d), (v mod d). split; [rewrite Z.mul_comm; apply Z.div_mod; lia|]. split; [apply Z.mod_pos_bound; lia|]. unfold round_even.
  destruct (Z.ltb_spec (2 * (v mod d)) d); [left; auto|]. destruct (Z.ltb_spec d (2 * (v mod d))); [right; left; auto|]. assert (2 * (v mod d) = d) by lia. right; right. destruct (Z.even (v / d)); [left|right]; auto.
Qed.
Lemma even_succ q : Z.even q = false -> Z.even (q + 1) = true.
Proof. intros E. rewrite Z.add_1_r, Z.even_succ, <- Z.negb_even, E. reflexivity. Qed.
Lemma round_even_near v d k : 0 < d -> Z.abs (round_even v d * d - v) <= Z.abs (k * d - v).
Proof.
  intros D. destruct (round_even_cases v d D) as (q & r & -> & B & C). pose proof (multiple_far q r d k B) as K.
  assert (Q : Z.abs (q * d - (q * d + r)) = r) by (rewrite Z.abs_neq; lia). assert (Q1 : Z.abs ((q + 1) * d - (q * d + r)) = d - r) by (rewrite Z.abs_eq; lia).
  destruct C as [(C & ->) | [(C & ->) | [(C & _ & ->) | (C & _ & ->)]]]; rewrite ?Q, ?Q1; destruct K as [(K & ->) | (K & ->)]; nia.
Qed.
Lemma round_even_tie v d k : 0 < d -> k * d <> round_even v d * d -> Z.abs (k * d - v) = Z.abs (round_even v d * d - v) -> Z.even (round_even v d) = true.
Proof.
  intros D. destruct (round_even_cases v d D) as (q & r & -> & B & C). pose proof (multiple_far q r d k B) as K.
  assert (Q : Z.abs (q * d - (q * d + r)) = r) by (rewrite Z.abs_neq; lia). assert (Q1 : Z.abs ((q + 1) * d - (q * d + r)) = d - r) by (rewrite Z.abs_eq; lia).
  destruct C as [(C & ->) | [(C & ->) | [(C & E & ->) | (C & E & ->)]]]; rewrite ?Q, ?Q1; intros Ne Eq; try exact E; try (apply even_succ; exact E); exfalso; destruct K as [(K & Ke) | (K & Ke)]; rewrite Ke in Eq.
  - assert (q = k) by nia. subst k. lia.
  - nia.
  - nia.
  - assert (q + 1 = k) by nia. subst k. lia.
Qed.
Lemma round_even_le v d n : 0 < d -> v <= n * d -> round_even v d <= n.
Proof. intros D L. destruct (round_even_cases v d D) as (q & r & -> & B & C). destruct C as [(C & ->) | [(C & ->) | [(C & _ & ->) | (C & _ & ->)]]]; nia. Qed.
Lemma round_even_ge v d n : 0 < d -> n * d <= v -> n <= round_even v d.
Proof. intros D L. destruct (round_even_cases v d D) as (q & r & -> & B & C). destruct C as [(C & ->) | [(C & ->) | [(C & _ & ->) | (C & _ & ->)]]]; nia. Qed.
(** An even number is reached from half a unit below on. *)
Lemma round_even_half v d n : 0 < d -> Z.even n = true -> (n <= round_even v d <-> (2 * n - 1) * d <= 2 * v).
Proof.
  intros D En. destruct (round_even_cases v d D) as (q & r & -> & B & C). destruct C as [(C & ->) | [(C & ->) | [(C & E & ->) | (C & E & ->)]]].
  - split; intros; nia.
  - split; intros; nia.
  - split; intros H; [nia|]. assert (n <> q + 1) by (intros ->; rewrite Z.add_1_r, Z.even_succ, <- Z.negb_even, E in En; discriminate). nia.
  - split; intros; nia.
Qed.

(** ** Fields of floats and doubles *)
Lemma split64 w : 0 <= w < 2 ^ 64 -> exists s e m, (s = 0 \/ s = 1) /\ 0 <= e < 2 ^ 11 /\ 0 <= m < 2 ^ 52 /\ w = s * 2 ^ 63 + (e * 2 ^ 52 + m) /\ w / 2 ^ 63 = s /\ w / 2 ^ 52 mod 2 ^ 11 = e /\ w mod 2 ^ 52 = m /\ w mod 2 ^ 63 = e * 2 ^ 52 + m.
Proof.
  intros B. exists (w / 2 ^ 63), (w / 2 ^ 52 mod 2 ^ 11), (w mod 2 ^ 52).
  assert (S : 0 <= w / 2 ^ 63 < 2) by (split; [apply Z.div_pos; lia|apply Z.div_lt_upper_bound; lia]). assert (E : 0 <= w / 2 ^ 52 mod 2 ^ 11 < 2 ^ 11) by (apply Z.mod_pos_bound; lia).
  assert (M : 0 <= w mod 2 ^ 52 < 2 ^ 52) by (apply Z.mod_pos_bound; lia).
  pose proof (Z.div_mod w (2 ^ 52) ltac:(lia)) as D1. pose proof (Z.div_mod (w / 2 ^ 52) (2 ^ 11) ltac:(lia)) as D2. rewrite Z.div_div in D2 by lia. change (2 ^ 52 * 2 ^ 11) with (2 ^ 63) in D2.
  assert (W : w = w / 2 ^ 63 * 2 ^ 63 + (w / 2 ^ 52 mod 2 ^ 11 * 2 ^ 52 + w mod 2 ^ 52)) by lia.
  split; [lia|]. split; [exact E|]. split; [exact M|]. split; [exact W|]. repeat (split; [reflexivity|]). pose proof (Z.div_mod w (2 ^ 63) ltac:(lia)). lia.
Qed.
Lemma split32 w : 0 <= w < 2 ^ 32 -> exists s e m, (s = 0 \/ s = 1) /\ 0 <= e < 2 ^ 8 /\ 0 <= m < 2 ^ 23 /\ w = s * 2 ^ 31 + (e * 2 ^ 23 + m) /\ w / 2 ^ 31 = s /\ w / 2 ^ 23 mod 2 ^ 8 = e /\ w mod 2 ^ 23 = m /\ w mod 2 ^ 31 = e * 2 ^ 23 + m.
Proof.
  intros B. exists (w / 2 ^ 31), (w / 2 ^ 23 mod 2 ^ 8), (w mod 2 ^ 23).
  assert (S : 0 <= w / 2 ^ 31 < 2) by (split; [apply Z.div_pos; lia|apply Z.div_lt_upper_bound; lia]). assert (E : 0 <= w / 2 ^ 23 mod 2 ^ 8 < 2 ^ 8) by (apply Z.mod_pos_bound; lia).
  assert (M : 0 <= w mod 2 ^ 23 < 2 ^ 23) by (apply Z.mod_pos_bound; lia).
  pose proof (Z.div_mod w (2 ^ 23) ltac:(lia)) as D1. pose proof (Z.div_mod (w / 2 ^ 23) (2 ^ 8) ltac:(lia)) as D2. rewrite Z.div_div in D2 by lia. change (2 ^ 23 * 2 ^ 8) with (2 ^ 31) in D2.
  assert (W : w = w / 2 ^ 31 * 2 ^ 31 + (w / 2 ^ 23 mod 2 ^ 8 * 2 ^ 23 + w mod 2 ^ 23)) by lia.
  split; [lia|]. split; [exact E|]. split; [exact M|]. split; [exact W|]. repeat (split; [reflexivity|]). pose proof (Z.div_mod w (2 ^ 31) ltac:(lia)). lia.
Qed.
(** The absolute value of a finite float. *)
Definition float_mag (e m : Z) : Z := if e =? 0 then m * 2 ^ 925 else (2 ^ 23 + m) * 2 ^ (e - 1 + 925).
Lemma float_value_fields s e m : (s = 0 \/ s = 1) -> 0 <= e < 2 ^ 8 -> 0 <= m < 2 ^ 23 ->
  float_value (s * 2 ^ 31 + (e * 2 ^ 23 + m)) = if e =? 255 then None else Some (if s =? 0 then float_mag e m else - float_mag e m).
Proof.
  intros S E M. unfold float_value, ieee. destruct (fields_spec 23 8 s e m) as (F1 & F2 & F3); [lia|lia|exact E|exact M|]. change (8 + 23) with 31 in *. rewrite <- Z.add_assoc in *. rewrite F1, F2, F3. change (2 ^ 8 - 1) with 255.
  destruct (e =? 255); [reflexivity|]. f_equal. unfold float_mag. change (1 - 127 - 23 + 1074) with 925. replace (e - 127 - 23 + 1074) with (e - 1 + 925) by lia. set (a := if e =? 0 then _ else _). clearbody a. destruct S as [-> | ->]; [change ((-1) ^ 0) with 1; change (0 =? 0) with true|change ((-1) ^ 1) with (-1); change (1 =? 0) with false]; cbv iota; lia.
Qed.
Lemma double_value_fields s e m : (s = 0 \/ s = 1) -> 0 <= e < 2 ^ 11 -> 0 <= m < 2 ^ 52 ->
  double_value (s * 2 ^ 63 + (e * 2 ^ 52 + m)) = if e =? 2047 then None else Some (if s =? 0 then magnitude (s * 2 ^ 63 + (e * 2 ^ 52 + m)) else - magnitude (s * 2 ^ 63 + (e * 2 ^ 52 + m))).
Proof.
  intros S E M. unfold double_value, ieee, magnitude. destruct (fields_spec 52 11 s e m) as (F1 & F2 & F3); [lia|lia|exact E|exact M|]. change (11 + 52) with 63 in *. rewrite <- Z.add_assoc in *. rewrite F1, F2, F3. change (2 ^ 11 - 1) with 2047.
  destruct (e =? 2047); [reflexivity|]. f_equal. change (1 - 1023 - 52 + 1074) with 0. change (2 ^ 0) with 1. rewrite Z.mul_1_r. replace (e - 1023 - 52 + 1074) with (e - 1) by lia. set (a := if e =? 0 then _ else _). clearbody a. destruct S as [-> | ->]; [change ((-1) ^ 0) with 1; change (0 =? 0) with true|change ((-1) ^ 1) with (-1); change (1 =? 0) with false]; cbv iota; lia.
Qed.
Lemma pow_pos t : 0 <= t -> 0 < 2 ^ t.
Proof. intros. apply Z.pow_pos_nonneg; lia. Qed.
(** A float is a multiple of the unit [2^(t + 925)], or smaller than its 2^23 fold. *)
Lemma float_mag_shape e m t : 0 <= e -> 0 <= m < 2 ^ 23 -> 0 <= t -> 0 <= float_mag e m /\ ((exists k, float_mag e m = k * 2 ^ (t + 925)) \/ (0 < t /\ float_mag e m < 2 ^ 23 * 2 ^ (t + 925))).
Proof.
  intros E M T. unfold float_mag. destruct (Z.eqb_spec e 0) as [E0|E0].
  - pose proof (pow_pos 925 ltac:(lia)) as P. split; [nia|]. destruct (Z.eq_dec t 0) as [-> |T0]; [left; exists m; reflexivity|right]. split; [lia|].
    assert (2 ^ 925 <= 2 ^ (t + 925)) by (apply Z.pow_le_mono_r; lia). set (a := 2 ^ 925) in *. set (c := 2 ^ (t + 925)) in *. clearbody a c. nia.
  - pose proof (pow_pos (e - 1 + 925) ltac:(lia)) as P. split; [nia|]. destruct (Z_le_gt_dec t (e - 1)) as [L|L].
    + left. exists ((2 ^ 23 + m) * 2 ^ (e - 1 - t)). rewrite <- Z.mul_assoc, <- Z.pow_add_r by lia. do 2 f_equal. lia.
    + right. split; [lia|]. assert (Q : 2 ^ (e - 1 + 925) * 2 <= 2 ^ (t + 925)) by (rewrite <- (Z.pow_1_r 2) at 2; rewrite <- Z.pow_add_r by lia; apply Z.pow_le_mono_r; lia).
      set (a := 2 ^ (e - 1 + 925)) in *. set (c := 2 ^ (t + 925)) in *. clearbody a c. nia.
Qed.

(** ** The unit of the result *)
Definition unit_of (v : Z) : Z := Z.max 0 (Z.log2 v - 948).
Definition digits (v : Z) : Z := round_even v (2 ^ (unit_of v + 925)).
Lemma unit_spec v : 0 <= v -> 0 <= unit_of v /\ v < 2 ^ 24 * 2 ^ (unit_of v + 925) /\ (0 < unit_of v -> 2 ^ 23 * 2 ^ (unit_of v + 925) <= v).
Proof.
  intros V. unfold unit_of. set (t := Z.max 0 (Z.log2 v - 948)). assert (T : 0 <= t) by lia. split; [exact T|]. rewrite <- !Z.pow_add_r by lia.
  destruct (Z.eq_dec v 0) as [-> |V0].
  - assert (t = 0) by reflexivity. split; [apply pow_pos; lia|lia].
  - pose proof (Z.log2_spec v ltac:(lia)) as (L1 & L2). split.
    + eapply Z.lt_le_trans; [exact L2|]. apply Z.pow_le_mono_r; lia.
    + intros P. etransitivity; [|exact L1]. apply Z.pow_le_mono_r; lia.
Qed.
Lemma digits_spec v : 0 <= v -> 0 <= digits v <= 2 ^ 24 /\ (0 < unit_of v -> 2 ^ 23 <= digits v).
Proof.
  intros V. destruct (unit_spec v V) as (T & U & L). pose proof (pow_pos (unit_of v + 925) ltac:(lia)) as P. unfold digits. split; [split|].
  - apply round_even_ge; [exact P|lia].
  - apply round_even_le; [exact P|lia].
  - intros Q. apply round_even_ge; [exact P|apply L; exact Q].
Qed.
(** [digits] and [unit_of] as the bits of a float. *)
Lemma digits_float v : 0 <= v -> unit_of v * 2 ^ 23 + digits v < 255 * 2 ^ 23 -> exists e m, 0 <= e < 255 /\ 0 <= m < 2 ^ 23 /\ unit_of v * 2 ^ 23 + digits v = e * 2 ^ 23 + m /\ float_mag e m = digits v * 2 ^ (unit_of v + 925).
Proof.
  intros V H. destruct (unit_spec v V) as (T & _ & _). destruct (digits_spec v V) as (D & D1). set (t := unit_of v) in *. set (r := digits v) in *. clearbody t r.
  destruct (Z_lt_le_dec r (2 ^ 23)) as [L|L].
  - assert (t = 0) by (destruct (Z.eq_dec t 0); [assumption|specialize (D1 ltac:(lia)); lia]). subst t. exists 0, r. split; [lia|]. split; [lia|]. split; [lia|]. reflexivity.
  - destruct (Z.eq_dec r (2 ^ 24)) as [-> |N].
    + exists (t + 2), 0. split; [lia|]. split; [lia|]. split; [lia|]. unfold float_mag. destruct (Z.eqb_spec (t + 2) 0); [lia|]. replace (t + 2 - 1 + 925) with (1 + (t + 925)) by lia. rewrite (Z.pow_add_r 2 1) by lia. change (2 ^ 1) with 2. change (2 ^ 24) with (2 ^ 23 * 2). ring.
    + exists (t + 1), (r - 2 ^ 23). split; [lia|]. split; [lia|]. split; [lia|]. unfold float_mag. destruct (Z.eqb_spec (t + 1) 0); [lia|]. replace (t + 1 - 1 + 925) with (t + 925) by lia. f_equal. lia.
Qed.
Lemma overflow v : 0 <= v -> 255 * 2 ^ 23 <= unit_of v * 2 ^ 23 + digits v <-> too_large <= v.
Proof.
  intros V. unfold too_large. change (103 + 1074) with 1177. destruct (unit_spec v V) as (T & U & L). destruct (digits_spec v V) as (D & D1).
  assert (P : 2 ^ 24 * 2 ^ 1178 = 2 * 2 ^ 1201) by (rewrite <- Z.pow_add_r, <- Z.pow_succ_r by lia; reflexivity).
  assert (Q : 2 ^ 1201 = 2 ^ 24 * 2 ^ 1177) by (rewrite <- Z.pow_add_r by lia; reflexivity). pose proof (pow_pos 1177 ltac:(lia)) as P0.
  destruct (Z_lt_le_dec (unit_of v) 253) as [A|A].
  - split; intros H; [lia|]. exfalso. assert (2 ^ (unit_of v + 925) <= 2 ^ 1177) by (apply Z.pow_le_mono_r; lia). set (c := 2 ^ (unit_of v + 925)) in *. set (d := 2 ^ 1177) in *. clearbody c d. nia.
  - destruct (Z.eq_dec (unit_of v) 253) as [E|E].
    + unfold digits in *. rewrite E in *. change (253 + 925) with 1178 in *. pose proof (pow_pos 1178 ltac:(lia)) as P1. assert (P2 : 2 ^ 1178 = 2 * 2 ^ 1177) by reflexivity.
      pose proof (round_even_half v (2 ^ 1178) (2 ^ 24) P1 eq_refl) as I. set (r := round_even v (2 ^ 1178)) in *. clearbody r. set (c := 2 ^ 1178) in *. set (d := 2 ^ 1177) in *. clearbody c d. split; intros H.
      * assert (2 ^ 24 <= r) by lia. apply I in H0. nia.
      * enough (2 ^ 24 <= r) by lia. apply I. nia.
    + specialize (L ltac:(lia)). specialize (D1 ltac:(lia)). split; intros H; [|nia].
      assert (2 ^ 1179 <= 2 ^ (unit_of v + 925)) by (apply Z.pow_le_mono_r; lia). assert (P2 : 2 ^ 1179 = 4 * 2 ^ 1177) by reflexivity. set (c := 2 ^ (unit_of v + 925)) in *. set (d := 2 ^ 1177) in *. set (c' := 2 ^ 1179) in *. clearbody c c' d. nia.
Qed.
(** The nearest among all multiples and all floats. *)
Lemma mag_near v e m : 0 <= v -> 0 <= e -> 0 <= m < 2 ^ 23 ->
  Z.abs (digits v * 2 ^ (unit_of v + 925) - v) <= Z.abs (float_mag e m - v) /\
  (float_mag e m <> digits v * 2 ^ (unit_of v + 925) -> Z.abs (float_mag e m - v) = Z.abs (digits v * 2 ^ (unit_of v + 925) - v) -> Z.even (digits v) = true).
Proof.
  intros V E M. destruct (unit_spec v V) as (T & U & L). destruct (float_mag_shape e m (unit_of v) E M T) as (F0 & F). pose proof (pow_pos (unit_of v + 925) ltac:(lia)) as P. unfold digits.
  set (c := 2 ^ (unit_of v + 925)) in *. set (a := float_mag e m) in *. clearbody c a. destruct F as [(k & ->)|(F1 & F2)].
  - split; [apply round_even_near; exact P|]. intros Ne Eq. apply (round_even_tie v c k P Ne Eq).
  - specialize (L F1). pose proof (round_even_near v c (2 ^ 23) P) as R. rewrite (Z.abs_neq (2 ^ 23 * c - v)) in R by lia. rewrite (Z.abs_neq (a - v)) by lia. split; [lia|intros _ Eq; lia].
Qed.
Lemma neg_far v e m : 0 <= v -> 0 <= e -> 0 <= m < 2 ^ 23 ->
  Z.abs (digits v * 2 ^ (unit_of v + 925) - v) <= Z.abs (- float_mag e m - v) /\
  (- float_mag e m <> digits v * 2 ^ (unit_of v + 925) -> Z.abs (- float_mag e m - v) = Z.abs (digits v * 2 ^ (unit_of v + 925) - v) -> Z.even (digits v) = true).
Proof.
  intros V E M. destruct (unit_spec v V) as (T & _ & _). destruct (float_mag_shape e m 0 E M ltac:(lia)) as (F0 & _). pose proof (pow_pos (unit_of v + 925) ltac:(lia)) as P. unfold digits.
  set (c := 2 ^ (unit_of v + 925)) in *. set (a := float_mag e m) in *. clearbody c a. pose proof (round_even_near v c 0 P) as R. rewrite Z.mul_0_l in R. rewrite (Z.abs_neq (0 - v)) in R by lia. rewrite (Z.abs_neq (- a - v)) by lia.
  split; [lia|]. intros Ne Eq. assert (a = 0) by lia. subst a. apply (round_even_tie v c 0 P); [lia|]. rewrite Z.mul_0_l, (Z.abs_neq (0 - v)) by lia. lia.
Qed.

(** ** The conversion *)
Lemma narrow_fields s e m : (s = 0 \/ s = 1) -> 0 <= e < 2 ^ 11 -> 0 <= m < 2 ^ 52 ->
  narrow (s * 2 ^ 63 + (e * 2 ^ 52 + m)) = s * 2 ^ 31 + (if e =? 2047 then 255 * 2 ^ 23 + (if m =? 0 then 0 else Z.lor (2 ^ 22) (m / 2 ^ 29))
    else let v := magnitude (s * 2 ^ 63 + (e * 2 ^ 52 + m)) in Z.min (unit_of v * 2 ^ 23 + digits v) (255 * 2 ^ 23)).
Proof. intros S E M. unfold narrow. destruct (fields_spec 52 11 s e m) as (F1 & F2 & F3); [lia|lia|exact E|exact M|]. change (11 + 52) with 63 in *. rewrite <- Z.add_assoc in *. rewrite F1, F2, F3. reflexivity. Qed.
Lemma magnitude_nonneg w : 0 <= magnitude w.
Proof.
  unfold magnitude. assert (0 <= w mod 2 ^ 52 < 2 ^ 52) by (apply Z.mod_pos_bound; lia). assert (0 <= w / 2 ^ 52 mod 2 ^ 11 < 2 ^ 11) by (apply Z.mod_pos_bound; lia).
  destruct (Z.eqb_spec (w / 2 ^ 52 mod 2 ^ 11) 0); [lia|]. pose proof (pow_pos (w / 2 ^ 52 mod 2 ^ 11 - 1) ltac:(lia)). nia.
Qed.
Lemma nan_payload m : 0 <= m < 2 ^ 52 -> 0 < Z.lor (2 ^ 22) (m / 2 ^ 29) < 2 ^ 23.
Proof.
  intros M. assert (Q : 0 <= m / 2 ^ 29 < 2 ^ 23) by (split; [apply Z.div_pos; lia|apply Z.div_lt_upper_bound; lia]). set (x := m / 2 ^ 29) in *. clearbody x.
  assert (0 <= Z.lor (2 ^ 22) x) by (apply Z.lor_nonneg; lia). assert (Z.lor (2 ^ 22) x <> 0) by (intros H0; apply Z.lor_eq_0_iff in H0; lia). split; [lia|].
  destruct (Z.eq_dec x 0) as [-> |X]; [reflexivity|]. apply Z.log2_lt_pow2; [lia|]. rewrite Z.log2_lor by lia. apply Z.max_lub_lt; [reflexivity|apply Z.log2_lt_pow2; lia].
Qed.
Lemma sign_of s r : (s = 0 \/ s = 1) -> 0 <= r < 2 ^ 31 -> float_negative (s * 2 ^ 31 + r) = negb (s =? 0).
Proof. intros [-> | ->] B; unfold float_negative; [apply Z.leb_gt; lia|apply Z.leb_le; lia]. Qed.
Lemma dsign_of s r : (s = 0 \/ s = 1) -> 0 <= r < 2 ^ 63 -> double_negative (s * 2 ^ 63 + r) = negb (s =? 0).
Proof. intros [-> | ->] B; unfold double_negative; [apply Z.leb_gt; lia|apply Z.leb_le; lia]. Qed.
Lemma low31 s r : (s = 0 \/ s = 1) -> 0 <= r < 2 ^ 31 -> (s * 2 ^ 31 + r) mod 2 ^ 31 = r.
Proof. intros _ B. rewrite Z.add_comm, Z.mod_add by lia. apply Z.mod_small. exact B. Qed.
Lemma low63 s r : (s = 0 \/ s = 1) -> 0 <= r < 2 ^ 63 -> (s * 2 ^ 63 + r) mod 2 ^ 63 = r.
Proof. intros _ B. rewrite Z.add_comm, Z.mod_add by lia. apply Z.mod_small. exact B. Qed.
Lemma even_bits s t r : Z.even (s * 2 ^ 31 + (t * 2 ^ 23 + r)) = Z.even r.
Proof. rewrite !Z.even_add, !Z.even_mul, (Z.even_pow 2 31), (Z.even_pow 2 23) by lia. change (Z.even 2) with true. rewrite !orb_true_r. destruct (Z.even r); reflexivity. Qed.

Theorem narrow_rounded w : 0 <= w < 2 ^ 64 -> rounded w (narrow w).
Proof.
  intros B. destruct (split64 w B) as (s & e & m & S & E & M & -> & _). clear B.
  assert (Em : 0 <= e * 2 ^ 52 + m < 2 ^ 63) by lia.
  unfold rounded, double_infinite, double_nan, double_infinite. rewrite (dsign_of s _ S Em), (low63 s _ S Em), (double_value_fields s e m S E M), (narrow_fields s e m S E M). destruct (Z.eqb_spec e 2047) as [E1|E1].
  - assert (Rb : 0 <= 255 * 2 ^ 23 + (if m =? 0 then 0 else Z.lor (2 ^ 22) (m / 2 ^ 29)) < 2 ^ 31) by (pose proof (nan_payload m M); destruct (m =? 0); lia).
    rewrite (sign_of s _ S Rb). split; [lia|]. split; [reflexivity|]. split; [discriminate|]. split; [discriminate|]. split.
    + intros I. unfold float_infinite. rewrite (low31 s _ S Rb). assert (m = 0) by lia. subst m. reflexivity.
    + intros (_ & N). assert (M0 : m <> 0) by (intros ->; lia). destruct (Z.eqb_spec m 0); [contradiction|]. pose proof (nan_payload m M) as Np. split.
      * rewrite (float_value_fields s 255 _ S) by lia. reflexivity.
      * unfold float_infinite. rewrite (low31 s _ S Rb). lia.
  - cbv zeta. pose proof (magnitude_nonneg (s * 2 ^ 63 + (e * 2 ^ 52 + m))) as V0. set (v := magnitude (s * 2 ^ 63 + (e * 2 ^ 52 + m))) in *. clearbody v.
    destruct (unit_spec v V0) as (T & _ & _). destruct (digits_spec v V0) as (D & _). pose proof (overflow v V0) as Ov.
    assert (Rb : 0 <= Z.min (unit_of v * 2 ^ 23 + digits v) (255 * 2 ^ 23) < 2 ^ 31) by lia. rewrite (sign_of s _ S Rb).
    assert (Av : forall x, Some (if s =? 0 then v else - v) = Some x -> Z.abs x = v) by (intros x [= <-]; destruct (s =? 0); lia).
    split; [lia|]. split; [reflexivity|]. split; [|split; [|split]].
    + intros x Hx L. rewrite (Av x Hx) in L. assert (Lt : unit_of v * 2 ^ 23 + digits v < 255 * 2 ^ 23) by (apply Z.nle_gt; intros H; apply Ov in H; lia). rewrite Z.min_l by lia.
      destruct (digits_float v V0 Lt) as (e' & m' & Be & Bm & Eq & Fm). exists (if s =? 0 then digits v * 2 ^ (unit_of v + 925) else - (digits v * 2 ^ (unit_of v + 925))). injection Hx as Hx. split; [|split].
      * rewrite Eq, (float_value_fields s e' m' S) by lia. destruct (Z.eqb_spec e' 255); [lia|]. rewrite Fm. reflexivity.
      * intros g ug Bg. destruct (split32 g Bg) as (sg & eg & mg & Sg & Eg & Mg & -> & _). rewrite (float_value_fields sg eg mg Sg Eg Mg). destruct (Z.eqb_spec eg 255); [discriminate|]. intros [= <-]. subst x.
        destruct (mag_near v eg mg V0 ltac:(lia) Mg) as (N1 & _). destruct (neg_far v eg mg V0 ltac:(lia) Mg) as (N2 & _). destruct (s =? 0), (sg =? 0); lia.
      * intros g ug Bg. destruct (split32 g Bg) as (sg & eg & mg & Sg & Eg & Mg & -> & _). rewrite (float_value_fields sg eg mg Sg Eg Mg). destruct (Z.eqb_spec eg 255); [discriminate|]. intros [= <-]. subst x. rewrite even_bits.
        destruct (mag_near v eg mg V0 ltac:(lia) Mg) as (_ & N1). destruct (neg_far v eg mg V0 ltac:(lia) Mg) as (_ & N2). intros Ne Eq'. destruct (s =? 0), (sg =? 0); first [apply N1; lia|apply N2; lia].
    + intros x Hx L. rewrite (Av x Hx) in L. apply Ov in L. unfold float_infinite. rewrite (low31 s _ S Rb). lia.
    + intros I. exfalso. lia.
    + intros (H & _). discriminate.
Qed.

(** Floats with the same number and the same sign have the same bits. *)
Lemma float_mag_lt e m e' m' : 0 <= e < e' -> 0 <= m < 2 ^ 23 -> 0 <= m' -> float_mag e m < float_mag e' m'.
Proof.
  intros E M M'. unfold float_mag. destruct (Z.eqb_spec e' 0); [lia|]. pose proof (pow_pos (e' - 1 + 925) ltac:(lia)) as P. destruct (Z.eqb_spec e 0) as [E0|E0].
  - assert (2 ^ 925 <= 2 ^ (e' - 1 + 925)) by (apply Z.pow_le_mono_r; lia). pose proof (pow_pos 925 ltac:(lia)). set (a := 2 ^ 925) in *. set (c := 2 ^ (e' - 1 + 925)) in *. clearbody a c. nia.
  - pose proof (pow_pos (e - 1 + 925) ltac:(lia)). assert (Q : 2 ^ (e - 1 + 925) * 2 <= 2 ^ (e' - 1 + 925)) by (rewrite <- (Z.pow_1_r 2) at 2; rewrite <- Z.pow_add_r by lia; apply Z.pow_le_mono_r; lia).
    set (a := 2 ^ (e - 1 + 925)) in *. set (c := 2 ^ (e' - 1 + 925)) in *. clearbody a c. nia.
Qed.
Lemma float_mag_inj e m e' m' : 0 <= e -> 0 <= e' -> 0 <= m < 2 ^ 23 -> 0 <= m' < 2 ^ 23 -> float_mag e m = float_mag e' m' -> e = e' /\ m = m'.
Proof.
  intros E E' M M' Q. assert (Z : e = e').
  { destruct (Z_lt_le_dec e e'); [pose proof (float_mag_lt e m e' m'); lia|]. destruct (Z_lt_le_dec e' e); [pose proof (float_mag_lt e' m' e m); lia|lia]. }
  subst e'. split; [reflexivity|]. unfold float_mag in Q. destruct (Z.eqb_spec e 0).
  - pose proof (pow_pos 925 ltac:(lia)). set (a := 2 ^ 925) in *. clearbody a. nia.
  - pose proof (pow_pos (e - 1 + 925) ltac:(lia)). set (a := 2 ^ (e - 1 + 925)) in *. clearbody a. nia.
Qed.
Lemma float_value_inj f g v : 0 <= f < 2 ^ 32 -> 0 <= g < 2 ^ 32 -> float_value f = Some v -> float_value g = Some v -> float_negative f = float_negative g -> f = g.
Proof.
  intros Bf Bg. destruct (split32 f Bf) as (s & e & m & S & E & M & -> & _). destruct (split32 g Bg) as (s' & e' & m' & S' & E' & M' & -> & _).
  rewrite (float_value_fields s e m S E M), (float_value_fields s' e' m' S' E' M'), !sign_of by (assumption || lia).
  destruct (e =? 255); [discriminate|]. destruct (e' =? 255); [discriminate|]. intros [= F] [= G] N. assert (s = s') by (destruct S as [-> | ->], S' as [-> | ->]; cbn in N; congruence || reflexivity). subst s'.
  assert (Q : float_mag e m = float_mag e' m') by (destruct (s =? 0); lia). destruct (float_mag_inj e m e' m' ltac:(lia) ltac:(lia) M M' Q) as (-> & ->). reflexivity.
Qed.

(** ** Widening *)
Lemma widen_sign w : 0 <= w < 2 ^ 32 -> 0 <= widen w < 2 ^ 64 /\ double_negative (widen w) = float_negative w.
Proof.
  intros B. destruct (split32 w B) as (s & e & m & S & E & M & -> & F1 & F2 & F3 & _). unfold widen. rewrite F1, F2, F3. rewrite sign_of by (assumption || lia).
  set (r := if e =? 255 then _ else _). assert (R : 0 <= r < 2 ^ 63).
  { subst r. destruct (Z.eqb_spec e 255); [lia|]. destruct (Z.eqb_spec e 0); [|lia]. destruct (Z.eqb_spec m 0); [lia|].
    pose proof (Z.log2_spec m ltac:(lia)) as (L1 & L2). assert (L3 : 0 <= Z.log2 m < 23) by (split; [apply Z.log2_nonneg|apply Z.log2_lt_pow2; lia]). cbv zeta. set (k := Z.log2 m) in *. rewrite Z.pow_succ_r in L2 by lia.
    assert (P : 2 ^ k * 2 ^ (52 - k) = 2 ^ 52) by (rewrite <- Z.pow_add_r by lia; f_equal; lia). pose proof (pow_pos (52 - k) ltac:(lia)). assert (0 <= (m - 2 ^ k) * 2 ^ (52 - k) < 2 ^ 52) by nia. lia. }
  clearbody r. split; [destruct S as [-> | ->]; lia|]. apply dsign_of; assumption.
Qed.
Lemma widen_kind w : 0 <= w < 2 ^ 32 -> (double_infinite (widen w) -> float_infinite w) /\ (double_nan (widen w) -> float_nan w).
Proof.
  intros B. pose proof (widen_value w) as Wv. pose proof (widen_special w B) as Ws. unfold double_nan, float_nan, double_infinite, float_infinite.
  destruct (split32 w B) as (s & e & m & S & E & M & Ew & F1 & F2 & F3 & F4). assert (Q : e = 255 -> widen w mod 2 ^ 63 = 2047 * 2 ^ 52 + m * 2 ^ 29).
  { intros E1. unfold widen. rewrite F1, F2, F3, E1. change (255 =? 255) with true. cbv iota. apply low63; [exact S|lia]. }
  assert (Fv : float_value w = if e =? 255 then None else Some (if s =? 0 then float_mag e m else - float_mag e m)) by (rewrite Ew; apply float_value_fields; assumption).
  rewrite F4. destruct (Z.eqb_spec e 255) as [E1|E1].
  - specialize (Q E1). subst e. rewrite Q. split; intros H; [lia|]. split; [exact Fv|]. destruct H as (_ & H). intros H'. apply H. lia.
  - specialize (Wv _ B Fv). split; [|intros (H & _); congruence]. intros H. exfalso. destruct (widen_sign w B) as (Bw & _). destruct (split64 (widen w) Bw) as (s' & e' & m' & S' & E' & M' & Ew' & _ & _ & _ & F4').
    rewrite Ew', (double_value_fields s' e' m' S' E' M') in Wv. rewrite F4' in H. assert (e' = 2047) by lia. subst e'. discriminate Wv.
Qed.
Lemma widen_rounded w : 0 <= w < 2 ^ 32 -> rounded (widen w) w.
Proof.
  intros B. destruct (widen_sign w B) as (Bw & Sg). destruct (widen_kind w B) as (K1 & K2). split; [exact B|]. split; [symmetry; exact Sg|]. split; [|split; [|split; [exact K1|exact K2]]].
  - intros v Hv _. destruct (float_value w) as [u|] eqn:Eu; [|rewrite (widen_special w B Eu) in Hv; discriminate]. rewrite (widen_value w u B Eu) in Hv. injection Hv as <-. exists u. split; [exact Eu|]. split; intros; lia.
  - intros v Hv L. exfalso. destruct (float_value w) as [u|] eqn:Eu; [|rewrite (widen_special w B Eu) in Hv; discriminate]. rewrite (widen_value w u B Eu) in Hv. injection Hv as <-.
    destruct (split32 w B) as (s & e & m & S & E & M & -> & _). rewrite (float_value_fields s e m S E M) in Eu. destruct (Z.eqb_spec e 255); [discriminate|]. injection Eu as <-.
    assert (Lt : float_mag e m < too_large).
    { unfold too_large, float_mag. change (103 + 1074) with 1177. destruct (Z.eqb_spec e 0).
      - assert (2 ^ 925 <= 2 ^ 1177) by (apply Z.pow_le_mono_r; lia). pose proof (pow_pos 925 ltac:(lia)). set (a := 2 ^ 925) in *. set (c := 2 ^ 1177) in *. clearbody a c. nia.
      - assert (2 ^ (e - 1 + 925) <= 2 ^ 1178) by (apply Z.pow_le_mono_r; lia). pose proof (pow_pos (e - 1 + 925) ltac:(lia)). assert (2 ^ 1178 = 2 * 2 ^ 1177) by reflexivity. set (a := 2 ^ (e - 1 + 925)) in *. set (c := 2 ^ 1177) in *. set (c' := 2 ^ 1178) in *. clearbody a c c'. nia. }
    destruct (float_mag_shape e m 0 ltac:(lia) M ltac:(lia)) as (F0 & _). destruct (s =? 0); lia.
Qed.
(** The rounded float of a widened float is that float, unless it is a NaN. *)
Lemma narrow_widen w : 0 <= w < 2 ^ 32 -> ~ float_nan w -> narrow (widen w) = w.
Proof.
  intros B N. destruct (widen_sign w B) as (Bw & Sg). destruct (narrow_rounded (widen w) Bw) as (Br & Sr & R1 & R2 & R3 & _). destruct (widen_rounded w B) as (_ & _ & W1 & W2 & _).
  destruct (float_value w) as [u|] eqn:Eu.
  - pose proof (widen_value w u B Eu) as Ev. destruct (Z_lt_le_dec (Z.abs u) too_large) as [L|L].
    + destruct (R1 u Ev L) as (u' & N1 & N2 & _). pose proof (N2 w u B Eu) as Q. apply (float_value_inj _ _ u); [exact Br|exact B| |exact Eu|congruence]. rewrite N1. f_equal. lia.
    + exfalso. pose proof (W2 u Ev L) as I. unfold float_infinite in I. destruct (split32 w B) as (s & e & m & S & E & M & -> & _ & _ & _ & F4). rewrite F4 in I. assert (e = 255) by lia. subst e. rewrite (float_value_fields s 255 m S E M) in Eu. discriminate.
  - assert (I : float_infinite w) by (unfold float_nan, float_infinite in *; destruct (Z.eq_dec (w mod 2 ^ 31) (255 * 2 ^ 23)); [assumption|exfalso; apply N; auto]).
    assert (Dw : double_infinite (widen w)).
    { unfold double_infinite, float_infinite in *. destruct (split32 w B) as (s & e & m & S & E & M & Ew & F1 & F2 & F3 & F4). unfold widen. rewrite F1, F2, F3. rewrite F4 in I. assert (E1 : e = 255) by lia. assert (M1 : m = 0) by lia. rewrite E1, M1. change (255 =? 255) with true. cbv iota. apply low63; [exact S|lia]. }
    specialize (R3 Dw). unfold float_infinite, float_negative in *. rewrite Sg in Sr. pose proof (Z.div_mod w (2 ^ 31) ltac:(lia)) as D1. pose proof (Z.div_mod (narrow (widen w)) (2 ^ 31) ltac:(lia)) as D2.
    set (x := narrow (widen w)) in *. clearbody x. assert (0 <= w / 2 ^ 31 < 2) by (split; [apply Z.div_pos; lia|apply Z.div_lt_upper_bound; lia]). assert (0 <= x / 2 ^ 31 < 2) by (split; [apply Z.div_pos; lia|apply Z.div_lt_upper_bound; lia]).
    destruct (Z.leb_spec (2 ^ 31) x), (Z.leb_spec (2 ^ 31) w); try discriminate; lia.
Qed.
