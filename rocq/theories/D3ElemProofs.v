(** * Proofs about the element state readers *)
From Verif Require Import CBase CBaseFacts BinModel D3BufModel D3BufSpec D3BufProofs D3Model D3Spec D3CurProofs D3OpenProofs D3SectProofs D3StateProofs D3ReadModel D3ReadSpec D3ReadProofs D3ElemModel D3ElemSpec.
Open Scope Z_scope.

(** ** Lists of numbers *)
Lemma nums_length b pos n : length (nums b pos n) = Z.to_nat n.
Proof. unfold nums. rewrite map_length. apply stretch_length. Qed.
Lemma skipn_seq : forall k n i, skipn k (seq i n) = seq (i + k) (n - k).
Proof. induction k as [|k IH]; intros n i; [rewrite Nat.add_0_r, Nat.sub_0_r; reflexivity|]. destruct n; [reflexivity|]. cbn [seq skipn]. rewrite IH. f_equal; lia. Qed.
Lemma firstn_seq : forall k n i, firstn k (seq i n) = seq i (Nat.min k n).
Proof. induction k as [|k IH]; intros n i; [reflexivity|]. destruct n; [reflexivity|]. cbn [seq firstn Nat.min]. rewrite IH. reflexivity. Qed.
Lemma stretch_sub b pos n k m : 0 <= k -> 0 <= m -> k + m <= n -> firstn (Z.to_nat m) (skipn (Z.to_nat k) (stretch b pos n)) = stretch b (pos + k) m.
Proof.
  intros K M L. unfold stretch. rewrite skipn_map, firstn_map, skipn_seq, firstn_seq. replace (Nat.min (Z.to_nat m) (Z.to_nat n - Z.to_nat k)) with (Z.to_nat m) by lia.
  rewrite Nat.add_0_l. replace (Z.to_nat k) with (0 + Z.to_nat k)%nat by lia. generalize (Z.to_nat m). clear M L m. intros m.
  assert (G : forall i, map (fun i0 : nat => wd b (pos + Z.of_nat i0)) (seq (i + Z.to_nat k) m) = map (fun i0 : nat => wd b (pos + k + Z.of_nat i0)) (seq i m)).
  { induction m as [|m IH]; intros i; [reflexivity|]. cbn [seq map]. f_equal; [f_equal; lia|]. apply (IH (S i)). }
  apply G.
Qed.
Lemma nums_sub b pos n k m : 0 <= k -> 0 <= m -> k + m <= n -> firstn (Z.to_nat m) (skipn (Z.to_nat k) (nums b pos n)) = nums b (pos + k) m.
Proof. intros K M L. unfold nums. rewrite skipn_map, firstn_map, stretch_sub by assumption. reflexivity. Qed.
Lemma nums_cons b pos n : 0 < n -> nums b pos n = to_double (d_ws b) (wd b pos) :: nums b (pos + 1) (n - 1).
Proof.
  intros N. unfold nums, stretch. replace (Z.to_nat n) with (S (Z.to_nat (n - 1))) by lia. cbn [seq map]. rewrite Z.add_0_r. f_equal. rewrite !map_map. rewrite <- seq_shift, map_map. apply map_ext. intros a. do 2 f_equal. lia.
Qed.
Lemma nums_app b pos n m : 0 <= n -> 0 <= m -> nums b pos (n + m) = nums b pos n ++ nums b (pos + n) m.
Proof.
  intros N M. unfold nums. rewrite <- map_app. f_equal. rewrite <- (firstn_skipn (Z.to_nat n) (stretch b pos (n + m))). f_equal.
  - rewrite <- (skipn_O (stretch b pos (n + m))) at 1. change O with (Z.to_nat 0). rewrite stretch_sub by lia. rewrite Z.add_0_r. reflexivity.
  - rewrite <- (stretch_sub b pos (n + m) n m) by lia. symmetry. apply firstn_all2. rewrite skipn_length, stretch_length. lia.
Qed.
Lemma take_nums b pos N o n : 0 <= o -> 0 <= n -> o + n <= N -> take (nums b pos N) o n = OK (nums b (pos + o) n).
Proof.
  intros O Nn L. unfold take. rewrite nums_length. destruct (Z.leb_spec 0 o); [|lia]. destruct (Z.leb_spec (o + n) (Z.of_nat (Z.to_nat N))); [|lia]. cbn [andb]. rewrite nums_sub by lia. reflexivity.
Qed.
Lemma take_short d o n : Z.of_nat (length d) < o + n -> take d o n = UB.
Proof. intros L. unfold take. destruct (Z.leb_spec (o + n) (Z.of_nat (length d))); [lia|]. rewrite andb_false_r. reflexivity. Qed.
(** A flag: 0 or 1. *)
Definition bit (z : Z) : Prop := z = 0 \/ z = 1.
Lemma take_if_nums b pos N f o n : bit f -> 0 <= o -> 0 <= n -> o + n * f <= N -> take_if (negb (f =? 0)) (nums b pos N) o n = OK (group b f (pos + o) n, o + n * f).
Proof.
  intros [-> | ->] O Nn L; unfold take_if, group; cbn [Z.eqb negb].
  - do 2 f_equal. lia.
  - rewrite take_nums by lia. cbn [bind]. do 2 f_equal. lia.
Qed.
Lemma one_if_nums b pos N f o : bit f -> 0 <= o -> o + f <= N -> one_if (negb (f =? 0)) (nums b pos N) o = OK (single b f (pos + o), o + f).
Proof.
  intros F O L. unfold one_if. rewrite take_if_nums by (auto; lia). cbn [bind]. destruct F as [-> | ->]; unfold group, single; cbn [Z.eqb negb].
  - reflexivity.
  - rewrite nums_cons by lia. cbn [hd]. do 2 f_equal; lia.
Qed.
Lemma ioshl_bit v : bit (ioshl v).
Proof. unfold ioshl, bit. destruct (v =? 1000); auto. Qed.
Lemma iosol_bit v : bit (iosol v).
Proof. unfold iosol, bit. destruct (_ || _); auto. Qed.

(** ** Solids *)
Section Solids.
Context (b : dbuf) (pos N is : Z).
Let f0 := iosol (cval b IOSHL0). Let f1 := iosol (cval b IOSHL1).
Lemma solid_loop_ok : forall n o, 0 <= cval b NEIPH -> 0 <= o -> N < 2 ^ 64 -> o + Z.of_nat n * solid_words b <= N ->
  solid_loop (negb (f0 =? 0)) (negb (f1 =? 0)) (is =? 1) (cval b NEIPH) (nums b pos N) n o =
  OK (map (fun k => solid_spec b is (pos + o + Z.of_nat k * solid_words b)) (seq 0 n), o + Z.of_nat n * solid_words b).
Proof.
  pose proof (iosol_bit (cval b IOSHL0)) as B0. fold f0 in B0. pose proof (iosol_bit (cval b IOSHL1)) as B1. fold f1 in B1.
  induction n as [|n IH]; intros o Nh O Nb L; [cbn; do 2 f_equal; lia|].
  assert (Ew : solid_words b = 6 * f0 + f1 + cval b NEIPH) by reflexivity. assert (P0 : 0 <= f0 <= 1) by (destruct B0; lia). assert (P1 : 0 <= f1 <= 1) by (destruct B1; lia).
  assert (Ln : 0 <= Z.of_nat n * solid_words b) by (apply Z.mul_nonneg_nonneg; lia). rewrite Nat2Z.inj_succ, Z.mul_succ_l in L.
  cbn [solid_loop]. rewrite take_if_nums by (auto; lia). cbn [bind]. rewrite one_if_nums by (auto; lia). cbn [bind].
  assert (Eo : u64 (o + 6 * f0 + f1 + cval b NEIPH) = o + solid_words b) by (rewrite u64_id; lia). rewrite Eo.
  assert (Ex : exists o', take_if ((is =? 1) && (6 <=? cval b NEIPH)) (nums b pos N) (u64 (o + 6 * f0 + f1 + cval b NEIPH - 5 - 1)) 6 =
    OK (if (is =? 1) && (6 <=? cval b NEIPH) then nums b (pos + o + solid_words b - 6) 6 else repeat 0 6, o')).
  { unfold take_if. destruct ((is =? 1) && (6 <=? cval b NEIPH)) eqn:E; [|eexists; reflexivity]. apply andb_true_iff in E as (_ & E). apply Z.leb_le in E.
    rewrite u64_id by lia. rewrite take_nums by lia. cbn [bind]. eexists. do 3 f_equal. lia. }
  destruct Ex as (o' & ->). cbn [bind]. rewrite IH by lia. cbn [bind seq map]. do 2 f_equal; [|lia]. f_equal.
  - unfold solid_spec. fold f0 f1. rewrite Nat2Z.inj_0, Z.mul_0_l, Z.add_0_r. rewrite Z.add_assoc. reflexivity.
  - rewrite <- seq_shift, map_map. apply map_ext. intros k. f_equal. lia.
Qed.
(** Without history variables, every word that is announced is read. *)
Lemma solid_loop_short : cval b NEIPH = 0 -> 0 <= N < 2 ^ 64 -> forall n o, 0 <= o <= N -> N < o + Z.of_nat n * solid_words b ->
  solid_loop (negb (f0 =? 0)) (negb (f1 =? 0)) (is =? 1) 0 (nums b pos N) n o = UB.
Proof.
  pose proof (iosol_bit (cval b IOSHL0)) as B0. fold f0 in B0. pose proof (iosol_bit (cval b IOSHL1)) as B1. fold f1 in B1. intros Nz Nb.
  assert (Ew : solid_words b = 6 * f0 + f1) by (unfold solid_words; rewrite Nz; fold f0 f1; lia). assert (P0 : 0 <= f0 <= 1) by (destruct B0; lia). assert (P1 : 0 <= f1 <= 1) by (destruct B1; lia).
  induction n as [|n IH]; intros o O L; [lia|]. cbn [solid_loop].
  destruct (Z_le_gt_dec (o + 6 * f0) N) as [L0|L0].
  - rewrite take_if_nums by (auto; lia). cbn [bind]. destruct (Z_le_gt_dec (o + 6 * f0 + f1) N) as [L1|L1].
    + rewrite one_if_nums by (auto; lia). cbn [bind]. change (6 <=? 0) with false. rewrite andb_false_r. cbn [take_if bind]. rewrite Z.add_0_r, u64_id by lia. rewrite IH by lia. reflexivity.
    + unfold one_if. destruct B1 as [B1|B1]; [lia|]. rewrite B1. cbn [Z.eqb negb take_if]. rewrite take_short by (rewrite nums_length; lia). reflexivity.
  - destruct B0 as [B0|B0]; [lia|]. rewrite B0 in *. cbn [Z.eqb negb take_if]. rewrite take_short by (rewrite nums_length; lia). reflexivity.
Qed.
End Solids.

Section Elements.
Context (b : dbuf) (titles : Z) (states : list Z) (pl : plot) (V : view b titles states pl).
Let Su := v_su _ _ _ _ V. Let Rg := v_rg _ _ _ _ V. Let So := su_sound b Su.
Ltac nn f := pose proof (nonneg b Su f ltac:(discriminate) ltac:(discriminate)).
Lemma elem_words num nv off s p : nth_error states s = Some p -> 0 <= num * nv -> 0 <= off -> off + num * nv <= state_size b ->
  state_words_at (clear pl) num nv (p + off) = OK (clear pl, Some (nums b (p + off) (num * nv))) /\ num * nv < 2 ^ 63 /\ u64 (num * nv) = num * nv.
Proof.
  intros Hs Hn O L. destruct (state_pos b titles states pl V s p Hs) as (P & B). pose proof (below_bound b Su _ B) as Bb. pose proof (ws_pos b So).
  assert (Sm : num * nv < 2 ^ 63) by nia. assert (E : u64 (num * nv) = num * nv) by (apply u64_id; lia). split; [|split; [exact Sm|exact E]].
  unfold state_words_at. rewrite E. rewrite (state_read b titles states pl V (clear pl) s p off (num * nv) (v_buf _ _ _ _ V) Hs) by lia. cbn [bind].
  change (pl_buf (clear pl)) with (pl_buf pl). rewrite (v_buf _ _ _ _ V). reflexivity.
Qed.
Lemma solids_prefix s p is : nth_error states s = Some p -> istrn_of b = Some is -> 0 < cval b NEL8 ->
  read_solids_state pl s = (
    do ' (l, o) <- solid_loop (negb (iosol (cval b IOSHL0) =? 0)) (negb (iosol (cval b IOSHL1) =? 0)) (is =? 1) (cval b NEIPH) (nums b (p + s_solid b) (cval b NEL8 * cval b NV3D)) (Z.to_nat (cval b NEL8)) 0;
    if o =? cval b NEL8 * cval b NV3D then OK (clear pl, Some l) else OK (with_err pl (Some P_sanity), None)) /\ 0 <= cval b NEL8 * cval b NV3D < 2 ^ 63.
Proof.
  intros Hs Hi Hn. pose proof (s_order b titles states pl V) as Od. nn NV3D.
  assert (Es : s_beam b = s_solid b + cval b NV3D * cval b NEL8) by reflexivity.
  destruct (elem_words (cval b NEL8) (cval b NV3D) (s_solid b) s p Hs) as (Q & Sm & E); [nia|lia|lia|]. split; [|nia].
  unfold read_solids_state. change (pl_cd (clear pl)) with (pl_cd pl). rewrite !(v_cd _ _ _ _ V). cbn [control_value]. rewrite (nel8_u64 b titles states pl V).
  destruct (Z.eqb_spec (cval b NEL8) 0); [lia|]. unfold state_at. change (pl_states (clear pl)) with (pl_states pl). rewrite (v_states _ _ _ _ V), Hs.
  change (pl_ptr (clear pl)) with (pl_ptr pl). rewrite (v_ptr _ _ _ _ V K_STATE_SOLID (or_intror (nonempty b titles states pl V s p Hs))). cbn [table state_ptr].
  rewrite Q. cbn [bind]. unfold istrn_is. change (pl_istrn (clear pl)) with (pl_istrn pl). rewrite (v_istrn _ _ _ _ V), Hi. cbn [bind].
  change (pl_cd (clear pl)) with (pl_cd pl). rewrite !(v_cd _ _ _ _ V). cbn [control_value]. rewrite E. reflexivity.
Qed.
Lemma solids_ok s p is : nth_error states s = Some p -> istrn_of b = Some is -> 0 < cval b NEL8 -> solid_words b = cval b NV3D ->
  read_solids_state pl s = OK (clear pl, Some (each (cval b NEL8) (fun i => solid_spec b is (p + s_solid b + i * cval b NV3D)))).
Proof.
  intros Hs Hi Hn Hw. destruct (solids_prefix s p is Hs Hi Hn) as (-> & Bd). nn NEIPH.
  rewrite solid_loop_ok by (rewrite ?Hw; lia). cbn [bind]. rewrite Hw, Z2Nat.id, Z.add_0_l, Z.eqb_refl by lia. unfold each. rewrite Z.add_0_r. reflexivity.
Qed.
Lemma solids_small s p is : nth_error states s = Some p -> istrn_of b = Some is -> 0 < cval b NEL8 -> solid_words b < cval b NV3D -> read_solids_state pl s = OK (with_err pl (Some P_sanity), None).
Proof.
  intros Hs Hi Hn Hw. destruct (solids_prefix s p is Hs Hi Hn) as (-> & Bd). nn NEIPH.
  rewrite solid_loop_ok by (rewrite ?Z2Nat.id; nia). cbn [bind]. rewrite Z2Nat.id by lia. destruct (Z.eqb_spec (0 + cval b NEL8 * solid_words b) (cval b NEL8 * cval b NV3D)); [nia|reflexivity].
Qed.
Lemma solids_overrun s p is : nth_error states s = Some p -> istrn_of b = Some is -> 0 < cval b NEL8 -> cval b NEIPH = 0 -> cval b NV3D < solid_words b -> read_solids_state pl s = UB.
Proof.
  intros Hs Hi Hn Hz Hw. destruct (solids_prefix s p is Hs Hi Hn) as (-> & Bd). nn NV3D. rewrite Hz. rewrite solid_loop_short; [reflexivity|exact Hz|lia|lia|]. rewrite Z2Nat.id by lia. nia.
Qed.
Lemma solids_unset s p : nth_error states s = Some p -> istrn_of b = None -> 0 < cval b NEL8 -> read_solids_state pl s = UB.
Proof.
  intros Hs Hi Hn. pose proof (s_order b titles states pl V) as Od. nn NV3D.
  assert (Es : s_beam b = s_solid b + cval b NV3D * cval b NEL8) by reflexivity.
  destruct (elem_words (cval b NEL8) (cval b NV3D) (s_solid b) s p Hs) as (Q & Sm & E); [nia|lia|lia|].
  unfold read_solids_state. change (pl_cd (clear pl)) with (pl_cd pl). rewrite !(v_cd _ _ _ _ V). cbn [control_value]. rewrite (nel8_u64 b titles states pl V).
  destruct (Z.eqb_spec (cval b NEL8) 0); [lia|]. unfold state_at. change (pl_states (clear pl)) with (pl_states pl). rewrite (v_states _ _ _ _ V), Hs.
  change (pl_ptr (clear pl)) with (pl_ptr pl). rewrite (v_ptr _ _ _ _ V K_STATE_SOLID (or_intror (nonempty b titles states pl V s p Hs))). cbn [table state_ptr].
  rewrite Q. cbn [bind]. unfold istrn_is. change (pl_istrn (clear pl)) with (pl_istrn pl). rewrite (v_istrn _ _ _ _ V), Hi. reflexivity.
Qed.
Lemma solids_none s : cval b NEL8 = 0 -> read_solids_state pl s = OK (clear pl, None).
Proof. intros Hn. unfold read_solids_state. change (pl_cd (clear pl)) with (pl_cd pl). rewrite !(v_cd _ _ _ _ V). cbn [control_value]. rewrite (nel8_u64 b titles states pl V), Hn. reflexivity. Qed.
Lemma solids_out s : 0 < cval b NEL8 -> (length states <= s)%nat -> read_solids_state pl s = OK (with_err pl (Some P_state), None).
Proof.
  intros Hn L. unfold read_solids_state. change (pl_cd (clear pl)) with (pl_cd pl). rewrite !(v_cd _ _ _ _ V). cbn [control_value]. rewrite (nel8_u64 b titles states pl V).
  destruct (Z.eqb_spec (cval b NEL8) 0); [lia|]. unfold state_at. change (pl_states (clear pl)) with (pl_states pl). rewrite (v_states _ _ _ _ V). apply nth_error_None in L. rewrite L. reflexivity.
Qed.
End Elements.
