(** * Rounding to [p] bits, to nearest, ties to even

    The rounding of the C types float ([p = 24]) and double ([p = 53]), without
    the bounds of the exponent (no overflow, no underflow); used to interpret
    the arithmetic of card_parse_float32_width and card_parse_float64_width
    (key.c:912-1316) exactly. *)
From Coq Require Import ZArith QArith Qpower Qabs Qround Qfield Lqa Lia.
From Verif Require Import CBase CBaseFacts CardModel CardSpec CardProofs CardFloat.
Open Scope nat_scope.
Open Scope list_scope.

(** ** Specification *)
(** The numbers with [p] significant bits. *)
Definition representable (p : Z) (x : Q) : Prop :=
  exists m e, (Z.abs m < 2 ^ p)%Z /\ (x == inject_Z m * Qpower 2 e)%Q.
(** [y] is a number with [p] bits, and none is nearer to [x]. *)
Definition nearest (p : Z) (x y : Q) : Prop :=
  representable p y /\ forall z, representable p z -> (Qabs (y - x) <= Qabs (z - x))%Q.

(** ** Definition *)
(** The nearest integer, ties to even. *)
Definition nint (x : Q) : Z :=
  let q := Qfloor x in
  let r := (x - inject_Z q)%Q in
  match Qcompare r (1 # 2) with
  | Lt => q
  | Gt => q + 1
  | Eq => if Z.even q then q else q + 1
  end%Z.
(** The exponent of the last of the [p] bits of a positive fraction. *)
Definition expo (p : Z) (x : Q) : Z :=
  let k := (Z.log2 (Qnum x) - Z.log2 (Zpos (Qden x)))%Z in
  if Qlt_le_dec x (Qpower 2 k) then (k - p)%Z else (k - p + 1)%Z.
Definition ieee_pos (p : Z) (x : Q) : Q :=
  let e := expo p x in (inject_Z (nint (x * Qpower 2 (- e))) * Qpower 2 e)%Q.
Definition ieee (p : Z) (x0 : Q) : Q :=
  let x := Qred x0 in
  match Qcompare x 0 with
  | Eq => 0
  | Gt => ieee_pos p x
  | Lt => - ieee_pos p (- x)
  end%Q.

(** ** Facts *)
Lemma pow2_pos e : (0 < Qpower 2 e)%Q.
Proof. apply Qpower_0_lt. reflexivity. Qed.
Lemma pow2_add a b : (Qpower 2 (a + b) == Qpower 2 a * Qpower 2 b)%Q.
Proof. apply Qpower_plus. discriminate. Qed.
Lemma pow2_succ a : (Qpower 2 (a + 1) == 2 * Qpower 2 a)%Q.
Proof. rewrite pow2_add, Qmult_comm. reflexivity. Qed.
Lemma pow2_Z e : (0 <= e)%Z -> (Qpower 2 e == inject_Z (2 ^ e))%Q.
Proof. intros H. change 2%Q with (inject_Z 2). rewrite Zpower_Qpower by assumption. reflexivity. Qed.
Lemma pow2_neg e : (Qpower 2 e * Qpower 2 (- e) == 1)%Q.
Proof. rewrite <- pow2_add. replace (e + - e)%Z with 0%Z by lia. reflexivity. Qed.
Lemma pow2_le a b : (a <= b)%Z -> (Qpower 2 a <= Qpower 2 b)%Q.
Proof.
  intros H. replace b with (a + (b - a))%Z by lia. rewrite pow2_add.
  assert (1 <= Qpower 2 (b - a))%Q.
  { rewrite pow2_Z by lia. change 1%Q with (inject_Z 1). rewrite <- Zle_Qle.
    assert (0 < 2 ^ (b - a))%Z by (apply Z.pow_pos_nonneg; lia). lia. }
  pose proof (pow2_pos a). nra.
Qed.

Lemma nint_err x : (Qabs (inject_Z (nint x) - x) <= 1 # 2)%Q.
Proof.
  unfold nint. pose proof (Qfloor_le x) as A. pose proof (Qlt_floor x) as B.
  rewrite inject_Z_plus in B. change (inject_Z 1) with 1%Q in B.
  destruct (Qcompare_spec (x - inject_Z (Qfloor x)) (1 # 2)) as [E|E|E].
  - destruct (Z.even (Qfloor x)); [|rewrite inject_Z_plus; change (inject_Z 1) with 1%Q]; apply Qabs_Qle_condition; split; lra.
  - apply Qabs_Qle_condition; split; lra.
  - rewrite inject_Z_plus; change (inject_Z 1) with 1%Q. apply Qabs_Qle_condition; split; lra.
Qed.
Lemma nint_nearest x z : (Qabs (inject_Z (nint x) - x) <= Qabs (inject_Z z - x))%Q.
Proof.
  destruct (Z.eq_dec z (nint x)) as [->|N]; [apply Qle_refl|].
  apply Qle_trans with (1 # 2)%Q; [apply nint_err|]. pose proof (nint_err x) as E.
  apply Qabs_Qle_condition in E. destruct E as [E1 E2].
  assert (C : (z <= nint x - 1 \/ nint x + 1 <= z)%Z) by lia. destruct C as [C|C]; rewrite Zle_Qle in C.
  - unfold Z.sub in C. rewrite inject_Z_plus in C. change (inject_Z (- (1))) with (- (1))%Q in C.
    rewrite <- Qabs_opp. apply Qle_trans with (- (inject_Z z - x))%Q; [lra|apply Qle_Qabs].
  - rewrite inject_Z_plus in C. change (inject_Z 1) with 1%Q in C.
    apply Qle_trans with (inject_Z z - x)%Q; [lra|apply Qle_Qabs].
Qed.
Lemma nint_Z z x : (x == inject_Z z)%Q -> nint x = z.
Proof.
  intros E. pose proof (nint_nearest x z) as H.
  assert (Z0 : (Qabs (inject_Z z - x) == 0)%Q) by (rewrite E; unfold Qminus; rewrite Qplus_opp_r; reflexivity).
  rewrite Z0 in H. apply Qabs_Qle_condition in H. destruct H as [H1 H2].
  assert (I : (inject_Z (nint x) == inject_Z z)%Q) by lra. unfold Qeq in I. simpl in I. lia.
Qed.
Lemma nint_ge z x : (inject_Z z <= x)%Q -> (z <= nint x)%Z.
Proof.
  intros H. pose proof (nint_err x) as E. apply Qabs_Qle_condition in E. destruct E as [E1 E2].
  assert (C : (nint x + 1 <= z \/ z <= nint x)%Z) by lia. destruct C as [C|C]; [|assumption].
  rewrite Zle_Qle, inject_Z_plus in C. change (inject_Z 1) with 1%Q in C. lra.
Qed.
Lemma nint_le z x : (x <= inject_Z z)%Q -> (nint x <= z)%Z.
Proof.
  intros H. pose proof (nint_err x) as E. apply Qabs_Qle_condition in E. destruct E as [E1 E2].
  assert (C : (z + 1 <= nint x \/ nint x <= z)%Z) by lia. destruct C as [C|C]; [|assumption].
  rewrite Zle_Qle, inject_Z_plus in C. change (inject_Z 1) with 1%Q in C. lra.
Qed.

(** The chosen exponent leaves [p] bits before the point. *)
Lemma expo_spec p x : (0 < x)%Q -> (1 <= p)%Z ->
  (Qpower 2 (p - 1) <= x * Qpower 2 (- expo p x))%Q /\ (x * Qpower 2 (- expo p x) < Qpower 2 p)%Q.
Proof.
  intros X P. unfold expo. set (k := (Z.log2 (Qnum x) - Z.log2 (Zpos (Qden x)))%Z).
  assert (N : (0 < Qnum x)%Z) by (destruct x as [n d]; unfold Qlt in X; simpl in *; lia).
  destruct (Z.log2_spec (Qnum x) N) as [N1 N2]. destruct (Z.log2_spec (Zpos (Qden x)) eq_refl) as [D1 D2].
  set (a := Z.log2 (Qnum x)) in *. set (b := Z.log2 (Zpos (Qden x))) in *.
  assert (A0 : (0 <= a)%Z) by apply Z.log2_nonneg. assert (B0 : (0 <= b)%Z) by apply Z.log2_nonneg.
  assert (XD : (x * inject_Z (Zpos (Qden x)) == inject_Z (Qnum x))%Q).
  { destruct x as [n d]. unfold Qeq, Qmult, inject_Z. simpl. rewrite Pos.mul_1_r. lia. }
  rewrite Zle_Qle, <- pow2_Z in N1 by assumption. rewrite Zle_Qle, <- pow2_Z in D1 by assumption.
  rewrite Zlt_Qlt, <- pow2_Z in N2 by lia. rewrite Zlt_Qlt, <- pow2_Z in D2 by lia.
  assert (K : (Qpower 2 a == Qpower 2 k * Qpower 2 b)%Q) by (rewrite <- pow2_add; unfold k; replace (a - b + b)%Z with a by lia; reflexivity).
  assert (Sa : (Qpower 2 (Z.succ a) == 2 * Qpower 2 a)%Q).
  { apply pow2_succ. }
  assert (Sb : (Qpower 2 (Z.succ b) == 2 * Qpower 2 b)%Q).
  { apply pow2_succ. }
  rewrite Sa in N2. rewrite Sb in D2. pose proof (pow2_pos a) as PA. pose proof (pow2_pos b) as PB. pose proof (pow2_pos k) as PK.
  set (D := inject_Z (Zpos (Qden x))) in *. set (M := inject_Z (Qnum x)) in *.
  assert (U : (x < 2 * Qpower 2 k)%Q).
  { apply Qnot_le_lt. intros C. assert (2 * Qpower 2 k * D <= x * D)%Q by (apply Qmult_le_compat_r; lra).
    assert (2 * Qpower 2 k * Qpower 2 b <= 2 * Qpower 2 k * D)%Q; [|lra]. nra. }
  assert (L : (Qpower 2 k < 2 * x)%Q).
  { apply Qnot_le_lt. intros C. assert (2 * x * D <= Qpower 2 k * D)%Q by (apply Qmult_le_compat_r; lra).
    assert (Qpower 2 k * D < Qpower 2 k * (2 * Qpower 2 b))%Q; [|lra]. apply Qmult_lt_l; assumption. }
  assert (T1 : (Qpower 2 k * Qpower 2 (- k) == 1)%Q) by apply pow2_neg.
  assert (T2 : (Qpower 2 p == 2 * Qpower 2 (p - 1))%Q).
  { rewrite <- pow2_succ. replace (p - 1 + 1)%Z with p by lia. reflexivity. }
  pose proof (pow2_pos (- k)) as PMK. pose proof (pow2_pos (p - 1)) as PP.
  set (t := (x * Qpower 2 (- k))%Q).
  assert (Tu : (t < 2)%Q) by (unfold t; apply Qlt_le_trans with (2 * Qpower 2 k * Qpower 2 (- k))%Q; [apply Qmult_lt_r; assumption|lra]).
  assert (Tl : (1 < 2 * t)%Q) by (unfold t; apply Qle_lt_trans with (Qpower 2 k * Qpower 2 (- k))%Q; [lra|]; rewrite Qmult_assoc; apply Qmult_lt_r; assumption).
  destruct (Qlt_le_dec x (Qpower 2 k)) as [C|C].
  - assert (E : (x * Qpower 2 (- (k - p)) == t * Qpower 2 p)%Q).
    { unfold t. replace (- (k - p))%Z with (- k + p)%Z by lia. rewrite pow2_add. ring. }
    rewrite E, T2. assert (t < 1)%Q by (unfold t; apply Qlt_le_trans with (Qpower 2 k * Qpower 2 (- k))%Q; [apply Qmult_lt_r; assumption|lra]).
    split; nra.
  - assert (E : (x * Qpower 2 (- (k - p + 1)) == t * Qpower 2 (p - 1))%Q).
    { unfold t. replace (- (k - p + 1))%Z with (- k + (p - 1))%Z by lia. rewrite pow2_add. ring. }
    rewrite E, T2. assert (1 <= t)%Q by (unfold t; apply Qle_trans with (Qpower 2 k * Qpower 2 (- k))%Q; [lra|apply Qmult_le_compat_r; lra]).
    split; nra.
Qed.

Lemma scale_back x e : (x * Qpower 2 (- e) * Qpower 2 e == x)%Q.
Proof. rewrite <- Qmult_assoc, (Qmult_comm (Qpower 2 (- e))), pow2_neg. ring. Qed.

Section Pos.
Variables (p : Z) (x : Q).
Hypothesis (P : (1 <= p)%Z) (X : (0 < x)%Q).
Let e := expo p x.
Let m := (x * Qpower 2 (- e))%Q.

Lemma pos_mant : (2 ^ (p - 1) <= nint m <= 2 ^ p)%Z.
Proof.
  destruct (expo_spec p x X P) as [A B]. fold e in A, B. fold m in A, B.
  rewrite pow2_Z in A by lia. rewrite pow2_Z in B by lia. split; [apply nint_ge; assumption|apply nint_le; lra].
Qed.
Lemma pos_representable : representable p (ieee_pos p x).
Proof.
  pose proof pos_mant as M. unfold ieee_pos. fold e. fold m.
  destruct (Z.eq_dec (nint m) (2 ^ p)) as [E|E].
  - exists (2 ^ (p - 1))%Z, (e + 1)%Z. split.
    + rewrite Z.abs_eq by (apply Z.pow_nonneg; lia). apply Z.pow_lt_mono_r; lia.
    + rewrite E. rewrite <- !pow2_Z by lia. rewrite <- !pow2_add. replace (p - 1 + (e + 1))%Z with (p + e)%Z by lia. reflexivity.
  - exists (nint m), e. split; [|reflexivity]. assert (0 < 2 ^ (p - 1))%Z by (apply Z.pow_pos_nonneg; lia). lia.
Qed.
Lemma pos_diff y : (Qabs (y - x) == Qabs (y * Qpower 2 (- e) - m) * Qpower 2 e)%Q.
Proof.
  rewrite <- (Qabs_pos (Qpower 2 e)) at 1 by (apply Qlt_le_weak, pow2_pos). rewrite <- Qabs_Qmult.
  apply Qabs_wd. unfold m.
  transitivity (y * Qpower 2 (- e) * Qpower 2 e - x * Qpower 2 (- e) * Qpower 2 e)%Q; [rewrite !scale_back; reflexivity|ring].
Qed.
Lemma pos_unscale : (ieee_pos p x * Qpower 2 (- e) == inject_Z (nint m))%Q.
Proof.
  unfold ieee_pos. fold e. fold m. rewrite <- Qmult_assoc, pow2_neg. ring.
Qed.
Lemma pos_nearest z : representable p z -> (Qabs (ieee_pos p x - x) <= Qabs (z - x))%Q.
Proof.
  intros (n & f & N & E). rewrite (pos_diff (ieee_pos p x)), (pos_diff z).
  apply Qmult_le_compat_r; [|apply Qlt_le_weak, pow2_pos].
  setoid_rewrite pos_unscale. destruct (Z_lt_le_dec f e) as [C|C].
  - (* fewer than p-1 bits before the point *)
    destruct (expo_spec p x X P) as [A B]. fold e in A, B. fold m in A, B.
    apply Qle_trans with (Qabs (inject_Z (2 ^ (p - 1)) - m)); [apply nint_nearest|].
    rewrite <- pow2_Z by lia. rewrite <- Qabs_opp, <- (Qabs_opp (z * Qpower 2 (- e) - m)).
    assert (Zs : (z * Qpower 2 (- e) <= Qpower 2 (p - 1))%Q).
    { rewrite E, <- Qmult_assoc, <- pow2_add.
      apply Qle_trans with (inject_Z (2 ^ p) * Qpower 2 (f + - e))%Q.
      - apply Qmult_le_compat_r; [rewrite <- Zle_Qle; lia|apply Qlt_le_weak, pow2_pos].
      - rewrite <- pow2_Z by lia. rewrite <- pow2_add. apply pow2_le. lia. }
    rewrite !Qabs_pos by lra. lra.
  - assert (I : (z * Qpower 2 (- e) == inject_Z (n * 2 ^ (f - e)))%Q).
    { rewrite E, <- Qmult_assoc, <- pow2_add, inject_Z_mult, <- pow2_Z by lia.
      replace (f + - e)%Z with (f - e)%Z by lia. reflexivity. }
    setoid_rewrite I. apply nint_nearest.
Qed.
Lemma pos_within : within (Qpower 2 (- p)) 1 (ieee_pos p x) x.
Proof.
  pose proof pos_mant as M. destruct (expo_spec p x X P) as [A B]. fold e in A, B. fold m in A, B.
  pose proof (nint_err m) as Er. apply Qabs_Qle_condition in Er. destruct Er as [E1 E2].
  assert (G : (growth (Qpower 2 (- p)) 1 == 1 + Qpower 2 (- p))%Q) by (cbn [growth]; ring).
  assert (Hh : (Qpower 2 (- p) * Qpower 2 (p - 1) == 1 # 2)%Q).
  { rewrite <- pow2_add. replace (- p + (p - 1))%Z with (- (1))%Z by lia. reflexivity. }
  assert (M1 : (Qpower 2 (p - 1) <= inject_Z (nint m))%Q) by (rewrite pow2_Z by lia; rewrite <- Zle_Qle; apply M).
  pose proof (pow2_pos (- p)) as U. pose proof (pow2_pos (p - 1)) as V. pose proof (pow2_pos e) as W.
  assert (Xe : (x == m * Qpower 2 e)%Q) by (symmetry; apply scale_back).
  unfold within, ieee_pos. fold e. fold m. rewrite G. set (r := inject_Z (nint m)) in *.
  assert (R1 : (m <= r * (1 + Qpower 2 (- p)))%Q) by nra.
  assert (R2 : (r <= m * (1 + Qpower 2 (- p)))%Q) by nra.
  split; [|split].
  - apply Qmult_le_0_compat; lra.
  - rewrite Xe. setoid_replace (r * Qpower 2 e * (1 + Qpower 2 (- p)))%Q with (r * (1 + Qpower 2 (- p)) * Qpower 2 e)%Q by ring.
    apply Qmult_le_compat_r; lra.
  - setoid_replace (x * (1 + Qpower 2 (- p)))%Q with (m * (1 + Qpower 2 (- p)) * Qpower 2 e)%Q by (rewrite Xe; ring).
    apply Qmult_le_compat_r; lra.
Qed.
Lemma pos_pos : (0 < ieee_pos p x)%Q.
Proof.
  pose proof pos_mant as M. unfold ieee_pos. fold e. fold m.
  assert (0 < 2 ^ (p - 1))%Z by (apply Z.pow_pos_nonneg; lia).
  assert (0 < inject_Z (nint m))%Q by (change 0%Q with (inject_Z 0); rewrite <- Zlt_Qlt; lia).
  pose proof (pow2_pos e). nra.
Qed.
End Pos.

Lemma ieee_comp p x y : (x == y)%Q -> ieee p x = ieee p y.
Proof. intros E. unfold ieee. rewrite (Qred_complete _ _ E). reflexivity. Qed.

Lemma ieee_zero p x : (x == 0)%Q -> ieee p x = 0%Q.
Proof. intros E. unfold ieee. rewrite (Qred_complete _ _ E). reflexivity. Qed.
Lemma ieee_pos_eq p x : (0 < x)%Q -> ieee p x = ieee_pos p (Qred x).
Proof.
  intros X. unfold ieee. destruct (Qcompare_spec (Qred x) 0) as [E|E|E]; rewrite (Qred_correct x) in E; try reflexivity; exfalso; lra.
Qed.
Lemma ieee_neg_eq p x : (x < 0)%Q -> ieee p x = (- ieee_pos p (Qred (- x)))%Q.
Proof.
  intros X. unfold ieee. rewrite Qred_opp.
  destruct (Qcompare_spec (Qred x) 0) as [E|E|E]; rewrite (Qred_correct x) in E; try reflexivity; exfalso; lra.
Qed.
Lemma ieee_opp p x : (ieee p (- x) == - ieee p x)%Q.
Proof.
  destruct (Qlt_le_dec x 0) as [C|C]; [|destruct (Qlt_le_dec 0 x) as [D|D]].
  - rewrite (ieee_neg_eq p x C), (ieee_pos_eq p (- x)) by lra. ring.
  - rewrite (ieee_pos_eq p x D), (ieee_neg_eq p (- x)) by lra. rewrite (Qred_complete (- - x) x) by ring. reflexivity.
  - rewrite !ieee_zero by lra. reflexivity.
Qed.
Lemma representable_comp p x y : (x == y)%Q -> representable p x -> representable p y.
Proof. intros E (m & e & M & Q). exists m, e. split; [assumption|]. rewrite <- E. assumption. Qed.
Lemma representable_opp p x : representable p x -> representable p (- x)%Q.
Proof.
  intros (m & e & M & Q). exists (- m)%Z, e. split; [rewrite Z.abs_opp; assumption|]. rewrite Q, inject_Z_opp. ring.
Qed.
Lemma ieee_nearest_pos p x : (1 <= p)%Z -> (0 < x)%Q -> nearest p x (ieee p x).
Proof.
  intros P X. rewrite ieee_pos_eq by assumption. assert (R : (0 < Qred x)%Q) by (rewrite Qred_correct; assumption).
  split; [apply pos_representable; assumption|]. intros z Hz. pose proof (pos_nearest p (Qred x) P R z Hz) as N.
  rewrite (Qabs_wd _ (ieee_pos p (Qred x) - x)) in N by (rewrite (Qred_correct x) at 2; reflexivity).
  rewrite (Qabs_wd (z - Qred x) (z - x)) in N by (rewrite Qred_correct; reflexivity). exact N.
Qed.
(** The result has [p] bits, and no number with [p] bits is nearer. *)
Theorem ieee_nearest p x : (1 <= p)%Z -> nearest p x (ieee p x).
Proof.
  intros P. destruct (Qlt_le_dec x 0) as [C|C]; [|destruct (Qlt_le_dec 0 x) as [D|D]].
  - destruct (ieee_nearest_pos p (- x) P ltac:(lra)) as [R N]. split.
    + apply representable_comp with (- ieee p (- x))%Q; [rewrite ieee_opp; ring|]. apply representable_opp. assumption.
    + intros z Hz. specialize (N (- z)%Q (representable_opp _ _ Hz)).
      rewrite (Qabs_wd (ieee p (- x) - - x) (- (ieee p x - x))) in N by (rewrite ieee_opp; ring).
      rewrite (Qabs_wd (- z - - x) (- (z - x))) in N by ring. rewrite !Qabs_opp in N. exact N.
  - apply ieee_nearest_pos; assumption.
  - rewrite ieee_zero by lra. split.
    + exists 0%Z, 0%Z. split; [simpl; apply Z.pow_pos_nonneg; lia|reflexivity].
    + intros z _. rewrite (Qabs_wd (0 - x) 0) by lra. apply Qabs_nonneg.
Qed.
Lemma ieee_exact p x : (1 <= p)%Z -> representable p x -> (ieee p x == x)%Q.
Proof.
  intros P R. destruct (ieee_nearest p x P) as [_ N]. specialize (N x R).
  rewrite (Qabs_wd (x - x) 0) in N by ring. apply Qabs_Qle_condition in N. simpl in N. lra.
Qed.
Lemma representable_int p n : (Z.abs n < 2 ^ p)%Z -> representable p (inject_Z n).
Proof. intros H. exists n, 0%Z. split; [assumption|]. rewrite Qmult_1_r. reflexivity. Qed.
Lemma ieee_int p n : (1 <= p)%Z -> (Z.abs n < 2 ^ p)%Z -> (ieee p (inject_Z n) == inject_Z n)%Q.
Proof. intros P H. apply ieee_exact; [assumption|]. apply representable_int. assumption. Qed.
Lemma ieee_within p x : (1 <= p)%Z -> (0 <= x)%Q -> within (Qpower 2 (- p)) 1 (ieee p x) x.
Proof.
  intros P X. destruct (Qlt_le_dec 0 x) as [D|D].
  - rewrite ieee_pos_eq by assumption. assert (R : (0 < Qred x)%Q) by (rewrite Qred_correct; assumption).
    destruct (pos_within p (Qred x) P R) as (W1 & W2 & W3). set (r := ieee_pos p (Qred x)) in *. clearbody r.
    setoid_rewrite (Qred_correct x) in W2. setoid_rewrite (Qred_correct x) in W3. split; [assumption|]. split; assumption.
  - rewrite ieee_zero by lra. unfold within. rewrite (Qle_antisym x 0) by assumption. repeat split; discriminate.
Qed.

(** float and double, with a correctly rounded [pow]. *)
Definition powr (p : Z) (e : Z) : Q := ieee p (Qpower (inject_Z 10) e).
Lemma ieee_rounding p : (1 <= p)%Z -> rounding (Qpower 2 (- p)) (ieee p) (powr p).
Proof.
  intros P. split; [apply Qlt_le_weak, pow2_pos|]. split; [intros x y E; rewrite (ieee_comp p x y E); reflexivity|].
  split; [apply ieee_opp|]. split; [intros; apply ieee_within; assumption|].
  intros e. apply ieee_within; [assumption|]. apply Qlt_le_weak, Qpower_0_lt. reflexivity.
Qed.

(** ** Fields of a few digits *)
Lemma dec_from_mono l : forall a, digits l -> (0 <= a)%Z -> (a <= dec_from a l)%Z.
Proof.
  induction l as [|c l IH]; intros a D A; [cbn; lia|]. inversion D; subst.
  change (dec_from a (c :: l)) with (dec_from (a * 10 + (c - 48)) l).
  assert (a * 10 + (c - 48) <= dec_from (a * 10 + (c - 48)) l)%Z by (apply IH; [assumption|lia]). lia.
Qed.
Section Few.
Variables (p : Z) (pw : Z -> Q).
Hypothesis P : (1 <= p)%Z.
Let A := rounded (ieee p) pw.
Lemma fint_few l : forall acc x, digits l -> (0 <= acc)%Z -> (x == inject_Z acc)%Q -> (dec_from acc l < 2 ^ p)%Z ->
  (fint A x l == inject_Z (dec_from acc l))%Q.
Proof.
  induction l as [|c l IH]; intros acc x D H E B; [exact E|]. inversion D; subst.
  change (fint A x (c :: l)) with (fint A (ieee p (ieee p (x * inject_Z 10) + inject_Z (c - 48)))%Q l).
  change (dec_from acc (c :: l)) with (dec_from (acc * 10 + (c - 48)) l) in *.
  pose proof (dec_from_mono l (acc * 10 + (c - 48))%Z ltac:(assumption) ltac:(lia)) as M.
  assert (E1 : (ieee p (x * inject_Z 10) == inject_Z (acc * 10))%Q).
  { rewrite (ieee_comp p _ (inject_Z (acc * 10))) by (rewrite E, inject_Z_mult; reflexivity). apply ieee_int; [assumption|lia]. }
  apply IH; [assumption|lia| |assumption].
  rewrite (ieee_comp p _ (inject_Z (acc * 10 + (c - 48)))) by (rewrite E1, inject_Z_plus; reflexivity).
  apply ieee_int; [assumption|lia].
Qed.
Lemma fpow_few l : forall acc x, (0 < acc)%Z -> (x == inject_Z acc)%Q -> (acc * 10 ^ Z.of_nat (length l) < 2 ^ p)%Z ->
  (fpow A x l == inject_Z (acc * 10 ^ Z.of_nat (length l)))%Q.
Proof.
  induction l as [|c l IH]; intros acc x H E B; [cbn [length]; rewrite Z.mul_1_r; exact E|].
  change (fpow A x (c :: l)) with (fpow A (ieee p (x * inject_Z 10))%Q l).
  cbn [length] in *. rewrite Nat2Z.inj_succ, Z.pow_succ_r in * by lia.
  replace (acc * (10 * 10 ^ Z.of_nat (length l)))%Z with (acc * 10 * 10 ^ Z.of_nat (length l))%Z in * by ring.
  assert (0 < 10 ^ Z.of_nat (length l))%Z by (apply Z.pow_pos_nonneg; lia).
  apply IH; [lia| |assumption].
  rewrite (ieee_comp p _ (inject_Z (acc * 10))) by (rewrite E, inject_Z_mult; reflexivity).
  apply ieee_int; [assumption|]. nia.
Qed.
Lemma fmant_few ip ds : digits ip -> digits ds -> (dec ip < 2 ^ p)%Z -> (10 ^ Z.of_nat (length ds) < 2 ^ p)%Z ->
  fmant A (fint A (fofz A 0) ip) (Some ds) =
  ieee p (inject_Z (dec ip) + ieee p (inject_Z (dec ds) / inject_Z (10 ^ Z.of_nat (length ds)))).
Proof.
  intros I D B C. pose proof (dec_lt ds D) as L. unfold fmant.
  change (fadd A) with (fun x y => ieee p (x + y)%Q). change (fdiv A) with (fun x y => ieee p (x / y)%Q). cbv beta.
  apply ieee_comp. rewrite (fint_few ip 0 _ I); [|lia|reflexivity|assumption]. fold (dec ip).
  rewrite (ieee_comp p (fint A (fofz A 0) ds / fpow A (fofz A 1) ds) (inject_Z (dec ds) / inject_Z (10 ^ Z.of_nat (length ds)))); [reflexivity|].
  rewrite (fint_few ds 0 _ D); [|lia|reflexivity|apply Z.lt_trans with (10 ^ Z.of_nat (length ds))%Z; [apply L|assumption]].
  rewrite (fpow_few ds 1); [|lia|reflexivity|lia]. rewrite Z.mul_1_l. reflexivity.
Qed.
Lemma sign_few v m sg : sign_text sg v -> representable p m -> (ieee p (m * inject_Z v) == inject_Z v * m)%Q.
Proof.
  intros Hs R. rewrite (ieee_comp p _ (inject_Z v * m)) by ring. apply ieee_exact; [assumption|].
  destruct Hs as [[_ ->]|[[_ ->]|[_ ->]]].
  - apply representable_comp with m; [ring|assumption].
  - apply representable_comp with m; [ring|assumption].
  - apply representable_comp with (- m)%Q; [ring|apply representable_opp; assumption].
Qed.
End Few.
