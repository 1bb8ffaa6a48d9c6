(** * The value of float fields, exactly and up to rounding *)
From Coq Require Import QArith Qpower Qfield Lqa.
From Verif Require Import CBase CBaseFacts StringModel StringProofs CardModel CardSpec CardProofs.
Open Scope nat_scope.
Open Scope list_scope.

Lemma inject_ten_pos n : (0 < inject_Z (10 ^ Z.of_nat n))%Q.
Proof. change 0%Q with (inject_Z 0). rewrite <- Zlt_Qlt. apply Z.pow_pos_nonneg; lia. Qed.

Lemma fint_Q l : forall acc, (fint Qarith (inject_Z acc) l == inject_Z (dec_from acc l))%Q.
Proof.
  assert (P : forall l x y, (x == y)%Q -> (fint Qarith x l == fint Qarith y l)%Q).
  { clear. induction l as [|c l IH]; intros x y H; [exact H|]. simpl. apply IH. simpl. rewrite H. reflexivity. }
  induction l as [|c l IH]; intros acc; [reflexivity|].
  change (fint Qarith (inject_Z acc) (c :: l)) with (fint Qarith (inject_Z acc * inject_Z 10 + inject_Z (c - 48))%Q l).
  change (dec_from acc (c :: l)) with (dec_from (acc * 10 + (c - 48)) l).
  rewrite <- IH. apply P. rewrite inject_Z_plus, inject_Z_mult. reflexivity.
Qed.

Lemma fpow_Q l : forall acc, (fpow Qarith (inject_Z acc) l == inject_Z (acc * 10 ^ Z.of_nat (length l)))%Q.
Proof.
  assert (P : forall l x y, (x == y)%Q -> (fpow Qarith x l == fpow Qarith y l)%Q).
  { clear. induction l as [|c l IH]; intros x y H; [exact H|]. simpl. apply IH. simpl. rewrite H. reflexivity. }
  induction l as [|c l IH]; intros acc; [simpl; rewrite Z.mul_1_r; reflexivity|].
  change (fpow Qarith (inject_Z acc) (c :: l)) with (fpow Qarith (inject_Z acc * inject_Z 10)%Q l).
  rewrite (P l _ (inject_Z (acc * 10))) by (rewrite inject_Z_mult; reflexivity). rewrite IH.
  cbn [length]. rewrite Nat2Z.inj_succ, Z.pow_succ_r by lia. replace (acc * 10 * 10 ^ Z.of_nat (length l))%Z with (acc * (10 * 10 ^ Z.of_nat (length l)))%Z by ring. reflexivity.
Qed.

Lemma fvalue_Q sg ip fr ex : (fvalue Qarith sg ip fr ex == float_value sg ip fr ex)%Q.
Proof.
  unfold fvalue, float_value.
  assert (M : (fmant Qarith (fint Qarith (fofz Qarith 0) ip) fr == inject_Z (dec ip) + match fr with
                        | None => 0
                        | Some ds => inject_Z (dec ds) / inject_Z (10 ^ Z.of_nat (length ds))
                        end)%Q).
  { destruct fr as [ds|]; unfold fmant.
    - simpl fadd. simpl fdiv. rewrite (fint_Q ip 0), (fint_Q ds 0), (fpow_Q ds 1).
      rewrite Z.mul_1_l. reflexivity.
    - rewrite (fint_Q ip 0). rewrite Qplus_0_r. reflexivity. }
  destruct ex as [e|]; simpl fmul; simpl fscale; simpl fofz; rewrite M; ring.
Qed.

(** ** rounding *)
Section Rounding.
Variables (u : Q) (rnd : Q -> Q) (pw : Z -> Q).
Hypothesis Hr : rounding u rnd pw.
Let A := rounded rnd pw.

Lemma u_pos : (0 <= u)%Q. Proof. apply Hr. Qed.

Lemma growth_ge1 k : (1 <= growth u k)%Q.
Proof. pose proof u_pos. induction k as [|k IH]; cbn [growth]; [lra|nra]. Qed.
Lemma growth_add j k : (growth u (j + k) == growth u j * growth u k)%Q.
Proof. induction j as [|j IH]; cbn [growth Nat.add]; [ring|rewrite IH; ring]. Qed.
Lemma growth_mono j k : j <= k -> (growth u j <= growth u k)%Q.
Proof.
  intros H. replace k with (j + (k - j)) by lia. rewrite growth_add.
  pose proof (growth_ge1 j). pose proof (growth_ge1 (k - j)). nra.
Qed.

Lemma within_nonneg k x y : within u k x y -> (0 <= y)%Q.
Proof. intros (H1 & H2 & H3). pose proof (growth_ge1 k). nra. Qed.
Lemma within_mono j k x y : j <= k -> within u j x y -> within u k x y.
Proof.
  intros L W. pose proof (within_nonneg _ _ _ W) as Y. destruct W as (W1 & W2 & W3).
  pose proof (growth_mono j k L). pose proof (growth_ge1 j). repeat split; nra.
Qed.
Lemma within_trans j k x y z : within u j x y -> within u k y z -> within u (j + k) x z.
Proof.
  intros (W1 & W2 & W3) (V1 & V2 & V3). pose proof (growth_ge1 j). pose proof (growth_ge1 k).
  split; [assumption|]. rewrite growth_add. split; nra.
Qed.
Lemma within_eq k x y y' : within u k x y -> (y == y')%Q -> within u k x y'.
Proof. intros (W1 & W2 & W3) E. split; [assumption|]. rewrite <- E. split; assumption. Qed.
Lemma within_refl k x : (0 <= x)%Q -> within u k x x.
Proof. intros H. pose proof (growth_ge1 k). repeat split; nra. Qed.
Lemma within_rnd k x y : within u k x y -> within u (k + 1) (rnd x) y.
Proof.
  intros W. replace (k + 1) with (1 + k) by lia. apply within_trans with x; [|assumption]. apply Hr. apply W.
Qed.
Lemma within_add k x y x' y' : within u k x y -> within u k x' y' -> within u k (x + x') (y + y').
Proof. intros (W1 & W2 & W3) (V1 & V2 & V3). repeat split; nra. Qed.
Lemma within_mul j k x y x' y' : within u j x y -> within u k x' y' -> within u (j + k) (x * x') (y * y').
Proof.
  intros W V. pose proof (within_nonneg _ _ _ W) as Y. pose proof (within_nonneg _ _ _ V) as Y'.
  destruct W as (W1 & W2 & W3). destruct V as (V1 & V2 & V3).
  pose proof (growth_ge1 j) as G1. pose proof (growth_ge1 k) as G2.
  split; [nra|]. rewrite growth_add. split.
  - assert ((y * y') <= (x * growth u j) * (x' * growth u k))%Q; [|lra]. 
    apply Qle_trans with ((x * growth u j) * y')%Q; [apply Qmult_le_compat_r; assumption|].
    rewrite (Qmult_comm (x * growth u j) y'), (Qmult_comm (x * growth u j) (x' * growth u k)). apply Qmult_le_compat_r; [assumption|nra].
  - assert ((x * x') <= (y * growth u j) * (y' * growth u k))%Q; [|lra].
    apply Qle_trans with ((y * growth u j) * x')%Q; [apply Qmult_le_compat_r; assumption|].
    rewrite (Qmult_comm (y * growth u j) x'), (Qmult_comm (y * growth u j) (y' * growth u k)). apply Qmult_le_compat_r; [assumption|nra].
Qed.
Lemma within_inv k x y : (0 < y)%Q -> within u k x y -> within u k (/ x) (/ y).
Proof.
  intros Y (W1 & W2 & W3). pose proof (growth_ge1 k) as G.
  assert (X : (0 < x)%Q) by nra.
  assert (IX : (0 < / x)%Q) by (apply Qinv_lt_0_compat; assumption).
  assert (IY : (0 < / y)%Q) by (apply Qinv_lt_0_compat; assumption).
  assert (EX : (x * / x == 1)%Q) by (apply Qmult_inv_r; lra).
  assert (EY : (y * / y == 1)%Q) by (apply Qmult_inv_r; lra).
  repeat split; [lra| |].
  - (* 1/y <= g/x  <= x <= y g *)
    apply Qle_trans with ((x * / x) * / y)%Q; [rewrite EX; lra|].
    apply Qle_trans with ((y * growth u k) * / x * / y)%Q.
    + apply Qmult_le_compat_r; [apply Qmult_le_compat_r; [assumption|lra]|lra].
    + assert (T : (y * growth u k * / x * / y == (y * / y) * (/ x * growth u k))%Q) by ring. rewrite T, EY. lra.
  - apply Qle_trans with ((y * / y) * / x)%Q; [rewrite EY; lra|].
    apply Qle_trans with ((x * growth u k) * / y * / x)%Q.
    + apply Qmult_le_compat_r; [apply Qmult_le_compat_r; [assumption|lra]|lra].
    + assert (T : (x * growth u k * / y * / x == (x * / x) * (/ y * growth u k))%Q) by ring. rewrite T, EX. lra.
Qed.

Lemma fint_within l : forall k x y, digits l -> within u k x (inject_Z y) -> 
  within u (k + 2 * length l) (fint A x l) (inject_Z (dec_from y l)).
Proof.
  induction l as [|c l IH]; intros k x y Hd W; [cbn [length]; replace (k + 2 * 0) with k by lia; exact W|].
  inversion Hd; subst. cbn [length]. replace (k + 2 * S (length l)) with ((k + 2) + 2 * length l) by lia.
  change (fint A x (c :: l)) with (fint A (rnd (rnd (x * inject_Z 10) + inject_Z (c - 48)))%Q l).
  change (dec_from y (c :: l)) with (dec_from (y * 10 + (c - 48)) l).
  apply IH; [assumption|]. replace (k + 2) with (k + 1 + 1) by lia. apply within_rnd.
  apply within_eq with (inject_Z (y * 10) + inject_Z (c - 48))%Q; [|rewrite <- inject_Z_plus; reflexivity].
  apply within_add.
  - apply within_rnd. apply within_eq with (inject_Z y * inject_Z 10)%Q; [|rewrite <- inject_Z_mult; reflexivity].
    replace k with (k + 0) by lia. apply within_mul; [assumption|]. apply within_refl. discriminate.
  - apply within_refl. change 0%Q with (inject_Z 0). rewrite <- Zle_Qle. lia.
Qed.

Lemma fpow_within l : forall k x y, within u k x (inject_Z y) ->
  within u (k + length l) (fpow A x l) (inject_Z (y * 10 ^ Z.of_nat (length l))).
Proof.
  induction l as [|c l IH]; intros k x y W.
  - cbn [length]. replace (k + 0) with k by lia. simpl Z.pow. rewrite Z.mul_1_r. exact W.
  - cbn [length]. replace (k + S (length l)) with ((k + 1) + length l) by lia.
    change (fpow A x (c :: l)) with (fpow A (rnd (x * inject_Z 10))%Q l).
    rewrite Nat2Z.inj_succ, Z.pow_succ_r by lia. replace (y * (10 * 10 ^ Z.of_nat (length l)))%Z with ((y * 10) * 10 ^ Z.of_nat (length l))%Z by ring.
    apply IH. apply within_rnd. apply within_eq with (inject_Z y * inject_Z 10)%Q; [|rewrite <- inject_Z_mult; reflexivity].
    replace k with (k + 0) by lia. apply within_mul; [assumption|]. apply within_refl. discriminate.
Qed.

Lemma rnd_sign m sg v : sign_text sg v -> (rnd (m * inject_Z v) == inject_Z v * rnd m)%Q.
Proof.
  destruct Hr as (_ & P & O & _). intros [[_ ->]|[[_ ->]|[_ ->]]].
  - rewrite (P _ m) by ring. ring.
  - rewrite (P _ m) by ring. ring.
  - rewrite (P _ (- m)%Q) by ring. rewrite O. ring.
Qed.

Definition fr_len (fr : option (list Z)) : nat := match fr with Some ds => length ds | None => 0 end.

Lemma fvalue_within sgt sg ip fr ex : sign_text sgt sg -> digits ip -> (forall ds, fr = Some ds -> digits ds) ->
  exists m, (fvalue A sg ip fr ex == inject_Z sg * m)%Q /\
    within u (2 * length ip + 3 * fr_len fr + 5) m (float_value 1 ip fr ex).
Proof.
  intros Sg Hip Hfr.
  set (exact := (inject_Z (dec ip) + match fr with
                        | None => 0
                        | Some ds => inject_Z (dec ds) / inject_Z (10 ^ Z.of_nat (length ds))
                        end)%Q).
  assert (W1 : within u (2 * length ip) (fint A (inject_Z 0) ip) (inject_Z (dec ip))).
  { apply (fint_within ip 0 (inject_Z 0) 0 Hip). apply within_refl. discriminate. }
  assert (M : within u (2 * length ip + 3 * fr_len fr + 2) (fmant A (fint A (fofz A 0) ip) fr) exact).
  { unfold exact. destruct fr as [ds|]; unfold fmant; cbn [fr_len].
    - replace (2 * length ip + 3 * length ds + 2) with ((2 * length ip + 3 * length ds + 1) + 1) by lia.
      apply within_rnd. apply within_add; [apply within_mono with (2 * length ip); [lia|exact W1]|].
      apply within_mono with (3 * length ds + 1); [lia|]. apply within_rnd.
      replace (3 * length ds) with (2 * length ds + length ds) by lia.
      unfold Qdiv. apply within_mul.
      + apply (fint_within ds 0 (inject_Z 0) 0 (Hfr ds eq_refl)). apply within_refl. discriminate.
      + apply within_inv; [apply inject_ten_pos|].
        pose proof (fpow_within ds 0 (inject_Z 1) 1 (within_refl 0 (inject_Z 1) ltac:(discriminate))) as W.
        rewrite Z.mul_1_l in W. exact W.
    - apply within_eq with (inject_Z (dec ip)); [|ring]. apply within_mono with (2 * length ip); [lia|exact W1]. }
  unfold fvalue, float_value. fold exact. destruct ex as [e|].
  - eexists. split; [apply (rnd_sign _ sgt sg Sg)|].
    replace (2 * length ip + 3 * fr_len fr + 5) with (((2 * length ip + 3 * fr_len fr + 2) + 1) + 1 + 1) by lia.
    apply within_rnd. apply within_rnd.
    apply within_eq with (exact * Qpower (inject_Z 10) e)%Q; [|ring].
    apply within_mul; [exact M|]. apply Hr.
  - eexists. split; [apply (rnd_sign _ sgt sg Sg)|].
    apply within_eq with exact; [|ring].
    apply within_mono with ((2 * length ip + 3 * fr_len fr + 2) + 1); [lia|]. apply within_rnd. exact M.
Qed.
End Rounding.
