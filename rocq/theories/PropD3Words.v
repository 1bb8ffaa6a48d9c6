(** * The words of a d3plot: what the vocabulary of D3BufSpec.v and D3Spec.v means

    The specifications of the d3plot properties speak of words, signed words,
    end markers and flags with the functions [le_value], [signed], [is_eof],
    [ioshl], [iosol].  The theorems here tie these to numbers. *)
From Verif Require Import CBase CBaseFacts BinModel D3BufModel D3BufSpec D3BufProofs D3Model D3Spec D3CurProofs D3OpenProofs D3SectProofs D3StateProofs D3BadProofs D3Sample D3ReadModel D3ReadSpec PropD3Buf PropD3Open.
Open Scope Z_scope.

(** ** C37: words are little endian *)
Theorem C37_little_endian : forall l k, Forall (fun x => 0 <= x < 256) l -> (k < length l)%nat -> le_value l / 256 ^ Z.of_nat k mod 256 = nth k l 0.
Proof.
  induction l as [|x l IH]; intros k F L; [cbn in L; lia|]. inversion F; subst. cbn [le_value]. destruct k as [|k].
  - cbn [nth Z.of_nat]. rewrite Z.pow_0_r, Z.div_1_r. symmetry. apply Z.mod_unique with (q := le_value l); [left; lia|ring].
  - cbn [nth]. rewrite <- (IH k) by (assumption || (cbn in L; lia)). rewrite Nat2Z.inj_succ, Z.pow_succ_r by lia. rewrite <- Z.div_div by lia. f_equal. f_equal. symmetry. apply Z.div_unique with (r := x); [left; lia|ring].
Qed.
Theorem C37_little_endian_range : forall l, Forall (fun x => 0 <= x < 256) l -> 0 <= le_value l < 256 ^ Z.of_nat (length l).
Proof.
  induction l as [|x l IH]; intros F; [cbn; lia|]. inversion F; subst. specialize (IH ltac:(assumption)). cbn [le_value length]. rewrite Nat2Z.inj_succ, Z.pow_succ_r by lia. lia.
Qed.
Example C37_little_endian_example : le_value [240; 35; 116; 201] = 3379831792.
Proof. reflexivity. Qed.

(** ** C53: signed words are two's complement *)
Theorem C53_signed : forall ws w, ws = 4 \/ ws = 8 -> - 2 ^ (8 * ws - 1) <= signed ws w < 2 ^ (8 * ws - 1) /\ (signed ws w) mod 2 ^ (8 * ws) = w mod 2 ^ (8 * ws).
Proof.
  intros ws w [-> | ->]; unfold signed; cbn [Z.eqb Pos.eqb]; [unfold s32|unfold s64]; cbv zeta.
  - change (8 * 4 - 1) with 31. change (8 * 4) with 32. pose proof (Z.mod_pos_bound w (2 ^ 32)) as B. destruct (Z.ltb_spec (w mod 2 ^ 32) (2 ^ 31)); split; lia.
  - change (8 * 8 - 1) with 63. change (8 * 8) with 64. pose proof (Z.mod_pos_bound w (2 ^ 64)) as B. destruct (Z.ltb_spec (w mod 2 ^ 64) (2 ^ 63)); split; lia.
Qed.
Example C53_signed_example : signed 4 4294967291 = -5 /\ signed 8 4294967291 = 4294967291.
Proof. split; reflexivity. Qed.

(** ** C53: the end marker is the number -999999 *)
Lemma norm_unique mb M M' a c : 0 <= mb -> 0 <= a -> 0 <= c -> 2 ^ mb <= M < 2 ^ (mb + 1) -> 2 ^ mb <= M' < 2 ^ (mb + 1) -> M * 2 ^ a = M' * 2 ^ c -> a = c /\ M = M'.
Proof.
  intros Hm Ha Hc B B' E. rewrite Z.pow_add_r in B, B' by lia. change (2 ^ 1) with 2 in *. assert (P : 0 < 2 ^ mb) by (apply Z.pow_pos_nonneg; lia).
  assert (X : forall a c M M', 0 <= a -> 0 <= c -> 2 ^ mb <= M < 2 ^ mb * 2 -> 2 ^ mb <= M' < 2 ^ mb * 2 -> M * 2 ^ a = M' * 2 ^ c -> a < c -> False).
  { clear a c M M' Ha Hc B B' E. intros a c M M' Ha Hc B B' E L. replace c with (a + (1 + (c - a - 1))) in E by lia. rewrite !Z.pow_add_r in E by lia. change (2 ^ 1) with 2 in E.
    assert (Pa : 0 < 2 ^ a) by (apply Z.pow_pos_nonneg; lia). assert (Pd : 0 < 2 ^ (c - a - 1)) by (apply Z.pow_pos_nonneg; lia).
    assert (E2 : M = M' * (2 * 2 ^ (c - a - 1))). { apply (Z.mul_reg_r _ _ (2 ^ a)); [lia|]. rewrite E. ring. } nia. }
  assert (a = c). { destruct (Z.lt_trichotomy a c) as [L|[L|L]]; [exfalso; exact (X a c M M' Ha Hc B B' E L)|exact L|exfalso; symmetry in E; exact (X c a M' M Hc Ha B' B E L)]. }
  subst c. split; [reflexivity|]. apply (Z.mul_reg_r _ _ (2 ^ a)); [|exact E]. assert (0 < 2 ^ a) by (apply Z.pow_pos_nonneg; lia). lia.
Qed.
Lemma some_inj {A} (x y : A) : Some x = Some y -> x = y.
Proof. congruence. Qed.
Lemma ieee_unique eb mb bias w v E M : 0 < eb -> 0 < mb -> 0 <= 1 - bias - mb + 1074 -> 0 <= w < 2 ^ (1 + eb + mb) -> 0 < E < 2 ^ eb - 1 -> 0 <= M < 2 ^ mb ->
  v = (2 ^ mb + M) * 2 ^ (E - bias - mb + 1074) -> (ieee eb mb bias w = Some (- v) <-> w = 2 ^ (eb + mb) + E * 2 ^ mb + M).
Proof.
  intros He Hm Hb Bw BE BM Ev. assert (Pm : 0 < 2 ^ mb) by (apply Z.pow_pos_nonneg; lia). assert (Pe : 0 < 2 ^ eb) by (apply Z.pow_pos_nonneg; lia).
  assert (Dec : w = w / 2 ^ (eb + mb) * 2 ^ (eb + mb) + (w / 2 ^ mb mod 2 ^ eb) * 2 ^ mb + w mod 2 ^ mb).
  { rewrite (Z.pow_add_r 2 eb mb) by lia. rewrite (Z.mul_comm (2 ^ eb)). rewrite <- Z.div_div by lia. pose proof (Z.div_mod (w / 2 ^ mb) (2 ^ eb) ltac:(lia)). pose proof (Z.div_mod w (2 ^ mb) ltac:(lia)). nia. }
  assert (Bs : 0 <= w / 2 ^ (eb + mb) < 2). { split; [apply Z.div_pos; [lia|apply Z.pow_pos_nonneg; lia]|]. apply Z.div_lt_upper_bound; [apply Z.pow_pos_nonneg; lia|]. rewrite <- Z.add_assoc, Z.pow_add_r in Bw by lia. change (2 ^ 1) with 2 in Bw. lia. }
  pose proof (Z.mod_pos_bound (w / 2 ^ mb) (2 ^ eb) Pe) as Be. pose proof (Z.mod_pos_bound w (2 ^ mb) Pm) as Bm.
  unfold ieee. cbv zeta. set (s := w / 2 ^ (eb + mb)) in *. set (e := w / 2 ^ mb mod 2 ^ eb) in *. set (m := w mod 2 ^ mb) in *.
  assert (Pv : 0 < v) by (subst v; apply Z.mul_pos_pos; [lia|apply Z.pow_pos_nonneg; lia]).
  split.
  - destruct (Z.eqb_spec e (2 ^ eb - 1)) as [Q|Q]; [discriminate|]. intros Eq. apply some_inj in Eq.
    assert (S1 : s = 1). { assert (S2 : s = 0 \/ s = 1) by lia. destruct S2 as [-> |S2]; [|exact S2]. exfalso. rewrite Z.pow_0_r, Z.mul_1_l in Eq. destruct (e =? 0); assert (0 < 2 ^ (1 - bias - mb + 1074)) by (apply Z.pow_pos_nonneg; lia).
      - assert (0 <= m * 2 ^ (1 - bias - mb + 1074)) by (apply Z.mul_nonneg_nonneg; lia). lia.
      - assert (0 <= 2 ^ (e - bias - mb + 1074)) by (apply Z.pow_nonneg; lia). assert (0 <= (2 ^ mb + m) * 2 ^ (e - bias - mb + 1074)) by (apply Z.mul_nonneg_nonneg; lia). lia. }
    rewrite S1 in *. rewrite Z.pow_1_r in Eq.
    destruct (Z.eqb_spec e 0) as [E0|E0].
    + exfalso. rewrite Ev in Eq. replace (E - bias - mb + 1074) with ((1 - bias - mb + 1074) + (E - 1)) in Eq by lia. remember (1 - bias - mb + 1074) as K eqn:EK. clear EK. rewrite Z.pow_add_r in Eq by lia.
      assert (PK : 0 < 2 ^ K) by (apply Z.pow_pos_nonneg; lia). assert (PE : 0 < 2 ^ (E - 1)) by (apply Z.pow_pos_nonneg; lia).
      assert (Eq3 : m = (2 ^ mb + M) * 2 ^ (E - 1)). { apply (Z.mul_reg_r _ _ (2 ^ K)); [lia|]. lia. } nia.
    + assert (Eq2 : (2 ^ mb + m) * 2 ^ (e - bias - mb + 1074) = (2 ^ mb + M) * 2 ^ (E - bias - mb + 1074)) by lia.
      assert (P2 : 2 ^ (mb + 1) = 2 ^ mb * 2) by (rewrite Z.pow_add_r by lia; reflexivity). apply (norm_unique mb) in Eq2; [|lia|lia|lia|lia|lia]. assert (e = E) by lia. assert (m = M) by lia. rewrite Dec. congruence || (subst e; lia).
  - intros Ew. assert (F : s = 1 /\ e = E /\ m = M).
    { assert (Pem : 2 ^ (eb + mb) = 2 ^ eb * 2 ^ mb) by (apply Z.pow_add_r; lia). unfold s, e, m. rewrite Ew, Pem. split; [|split].
      - symmetry. apply Z.div_unique with (r := E * 2 ^ mb + M); [left; nia|ring].
      - replace ((2 ^ eb * 2 ^ mb + E * 2 ^ mb + M) / 2 ^ mb) with (2 ^ eb + E) by (apply Z.div_unique with (r := M); [left; lia|ring]). symmetry. apply Z.mod_unique with (q := 1); [left; lia|ring].
      - symmetry. apply Z.mod_unique with (q := 2 ^ eb + E); [left; lia|ring]. }
    destruct F as (-> & -> & ->). destruct (Z.eqb_spec E (2 ^ eb - 1)); [lia|]. destruct (Z.eqb_spec E 0); [lia|]. f_equal. rewrite Z.pow_1_r, Ev. ring.
Qed.
(** The words that count as an end marker are those that stand for -999999
    (numbers in units of 2^-1074). *)
Theorem C53_end_marker : forall b w, d_ws b = 4 \/ d_ws b = 8 -> 0 <= w < 256 ^ d_ws b -> (is_eof (d_ws b) w = true <-> number b w = Some (- (999999 * 2 ^ 1074))).
Proof.
  intros b w [W|W] B; unfold number, is_eof; rewrite W in *; cbn [Z.eqb Pos.eqb]; rewrite Z.eqb_eq.
  - unfold float_value. rewrite (ieee_unique 8 23 127 w (999999 * 2 ^ 1074) 146 (999999 * 2 ^ 4 - 2 ^ 23)); try lia; reflexivity.
  - unfold double_value. rewrite (ieee_unique 11 52 1023 w (999999 * 2 ^ 1074) 1042 (999999 * 2 ^ 33 - 2 ^ 52)); try lia; reflexivity.
Qed.
Example C53_end_marker_example : is_eof 4 3379831792 = true /\ is_eof 8 13920209174949527552 = true /\ is_eof 4 3379831793 = false.
Proof. repeat split; reflexivity. Qed.

(** ** C53: flags *)
(** Stresses and plastic strains of shells are there if the word is 1000, of
    solids if it is 999 or 1000. *)
Theorem C53_flags : forall b titles states, supported b -> regular_states b -> layout b titles states ->
  exists pl, open_buffer b = OK pl /\ pl_err pl = None /\
  (forall f, In f [IOSHL0; IOSHL1; IOSHL2; IOSHL3] -> pl_cd pl f = if Z.eq_dec (cval b f) 1000 then 1 else 0) /\
  (pl_cd pl IOSOL0 = 1 <-> cval b IOSHL0 = 999 \/ cval b IOSHL0 = 1000) /\ (pl_cd pl IOSOL0 = 0 <-> ~ (cval b IOSHL0 = 999 \/ cval b IOSHL0 = 1000)) /\
  (pl_cd pl IOSOL1 = 1 <-> cval b IOSHL1 = 999 \/ cval b IOSHL1 = 1000) /\ (pl_cd pl IOSOL1 = 0 <-> ~ (cval b IOSHL1 = 999 \/ cval b IOSHL1 = 1000)).
Proof.
  intros b titles states Su Rg La. destruct (C53_control_data b titles states Su Rg La) as (pl & Q & E & _ & C & _). exists pl. split; [exact Q|]. split; [exact E|].
  rewrite !C. cbn [control_value]. split.
  - intros f Hf. rewrite C. assert (X : control_value b f = ioshl (cval b f)) by (destruct Hf as [<- |[<- |[<- |[<- |[]]]]]; reflexivity). rewrite X. unfold ioshl. destruct (Z.eqb_spec (cval b f) 1000), (Z.eq_dec (cval b f) 1000); congruence.
  - unfold iosol. destruct (Z.eqb_spec (cval b IOSHL0) 1000), (Z.eqb_spec (cval b IOSHL0) 999), (Z.eqb_spec (cval b IOSHL1) 1000), (Z.eqb_spec (cval b IOSHL1) 999); cbn [orb]; lia.
Qed.

(** ** C52: missing files *)
Theorem C52_missing_reported : forall fs root, fs root = None -> (length root <= 991)%nat -> exists pl, d3plot_open fs root = OK pl /\ pl_err pl = Some (P_buffer E_no_files).
Proof. intros fs root N L. destruct (C52_missing fs root N L) as (b & O & E & _). eexists. unfold d3plot_open. rewrite O. cbn [bind]. rewrite E. split; reflexivity. Qed.
(** A family of which neither or both word sizes make sense is reported, too. *)
Theorem C52_unclear_reported : forall fs root files, family_of fs root files -> sound_family (start_buffer files) -> 184 <= total (start_buffer files) ->
  (plausible (start_buffer files) 4 <-> plausible (start_buffer files) 8) -> exists pl e, d3plot_open fs root = OK pl /\ pl_err pl = Some (P_buffer e).
Proof.
  intros fs root files F So T P. destruct (C37_word_size fs root files F So T) as (b & O & Ef & _ & Er).
  assert (P' : forall w, plausible b w <-> plausible (start_buffer files) w) by (intros w; unfold plausible, word_at, bytes_from, all_bytes; unfold start_buffer at 1 2 3; cbn [d_files]; rewrite Ef; reflexivity).
  assert (X : d_err b <> None) by (apply Er; rewrite !P'; exact P). destruct (d_err b) as [e|] eqn:E; [|congruence]. eexists _, e. unfold d3plot_open. rewrite O. cbn [bind]. rewrite E. split; reflexivity.
Qed.
