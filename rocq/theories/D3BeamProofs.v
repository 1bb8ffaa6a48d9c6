(** * Proofs about beams *)
From Verif Require Import CBase CBaseFacts BinModel D3BufModel D3BufSpec D3BufProofs D3Model D3Spec D3CurProofs D3OpenProofs D3SectProofs D3StateProofs D3ReadModel D3ReadSpec D3ReadProofs D3ElemModel D3ElemSpec D3ElemProofs D3LayerProofs D3ShellProofs D3ShellReadProofs.
Open Scope Z_scope.

(** [v] lies at [off] in [done]. *)
Definition holds {A} (done : list A) (off : Z) (v : list A) : Prop := exists pre post, done = pre ++ v ++ post /\ Z.of_nat (length pre) = off.
Lemma holds_more {A} (done more : list A) off v : holds done off v -> holds (done ++ more) off v.
Proof. intros (pre & post & -> & L). exists pre, (post ++ more). split; [rewrite !app_assoc; reflexivity|exact L]. Qed.
Lemma holds_new {A} (done v : list A) off : off = Z.of_nat (length done) -> holds (done ++ v) off v.
Proof. intros ->. exists done, []. rewrite app_nil_r. auto. Qed.
Lemma holds_see {A} (done : list A) off v rest n : n = Z.of_nat (length v) -> holds done off v -> see (map Some done ++ rest) off n = Some v.
Proof. intros -> (pre & post & -> & <-). apply see_done. Qed.
Lemma see_behind {A} (pre m : cells A) off n : 0 <= off -> see (pre ++ m) (Z.of_nat (length pre) + off) n = see m off n.
Proof.
  intros O. unfold see. rewrite app_length. assert (E : (0 <=? Z.of_nat (length pre) + off) && (Z.of_nat (length pre) + off + n <=? Z.of_nat (length pre + length m)) = (0 <=? off) && (off + n <=? Z.of_nat (length m))) by lia. rewrite E.
  destruct ((0 <=? off) && (off + n <=? Z.of_nat (length m))); [|reflexivity]. do 2 f_equal. rewrite skipn_app, skipn_all2 by lia. cbn [app]. f_equal. lia.
Qed.
Lemma store_before {A} (m rest : cells A) off l m' : store m off l = OK m' -> store (m ++ rest) off l = OK (m' ++ rest).
Proof.
  unfold store. rewrite app_length. destruct (Z.leb_spec 0 off); [|discriminate]. destruct (Z.leb_spec (off + Z.of_nat (length l)) (Z.of_nat (length m))); [|discriminate]. cbn [andb]. intros E. injection E as <-.
  destruct (Z.leb_spec (off + Z.of_nat (length l)) (Z.of_nat (length m + length rest))); [|lia]. f_equal. rewrite <- !app_assoc. rewrite firstn_app. replace (Z.to_nat off - length m)%nat with 0%nat by lia. rewrite firstn_O, app_nil_r. do 2 f_equal.
  rewrite skipn_app. replace (Z.to_nat off + length l - length m)%nat with 0%nat by lia. reflexivity.
Qed.
Lemma store_behind {A} (pre m : cells A) off l m' : store m off l = OK m' -> store (pre ++ m) (Z.of_nat (length pre) + off) l = OK (pre ++ m').
Proof.
  unfold store. rewrite app_length. destruct (Z.leb_spec 0 off); [|discriminate]. destruct (Z.leb_spec (off + Z.of_nat (length l)) (Z.of_nat (length m))); [|discriminate]. cbn [andb]. intros E. injection E as <-.
  destruct (Z.leb_spec 0 (Z.of_nat (length pre) + off)); [|lia]. destruct (Z.leb_spec (Z.of_nat (length pre) + off + Z.of_nat (length l)) (Z.of_nat (length pre + length m))); [|lia]. cbn [andb]. f_equal.
  rewrite firstn_app, (firstn_all2 pre) by lia. rewrite <- app_assoc. f_equal. replace (Z.to_nat (Z.of_nat (length pre) + off) - length pre)%nat with (Z.to_nat off) by lia. do 2 f_equal.
  rewrite skipn_app, skipn_all2 by lia. cbn [app]. f_equal. lia.
Qed.
(** Two regions, each of them filled from its beginning. *)
Definition two (d1 : list Z) (r1 : nat) (d2 : list Z) (r2 : nat) : cells Z := filled d1 r1 ++ filled d2 r2.
Lemma store_first d1 r1 d2 r2 off l : off = Z.of_nat (length d1) -> (length l <= r1)%nat -> store (two d1 r1 d2 r2) off l = OK (two (d1 ++ l) (r1 - length l) d2 r2).
Proof. intros E L. apply store_before, store_filled; assumption. Qed.
Lemma store_second d1 r1 d2 r2 off l : off = Z.of_nat (length d1 + r1) + Z.of_nat (length d2) -> (length l <= r2)%nat -> store (two d1 r1 d2 r2) off l = OK (two d1 r1 (d2 ++ l) (r2 - length l)).
Proof. intros -> L. unfold two. rewrite <- (filled_length d1 r1). apply store_behind, store_filled; auto. Qed.

Section Beams.
Context (b : dbuf) (pos N P H avg : Z) (Pn : 0 <= P) (Hn : 0 <= H) (An : 0 <= avg).
Let D := nums b pos N.
Lemma beam_values_ok : forall n o, 0 <= o -> o + 5 * Z.of_nat n <= N -> beam_values D n o = OK (map (fun k => nums b (pos + o + 5 * Z.of_nat k) 5) (seq 0 n), o + 5 * Z.of_nat n).
Proof.
  induction n as [|n IH]; intros o O L; [cbn; do 2 f_equal; lia|]. cbn [beam_values]. unfold D. rewrite take_nums by lia. cbn [bind]. fold D. rewrite IH by lia. cbn [bind seq map]. do 2 f_equal; [|lia]. f_equal; [f_equal; lia|].
  rewrite <- seq_shift, map_map. apply map_ext. intros k. f_equal. lia.
Qed.
Lemma beam_ips_ok i : 0 <= i -> forall vs j idone ir d1 r1 d2 r2 o, 0 <= j -> 0 <= o -> o + Z.of_nat (length vs) * H <= N ->
  Z.of_nat (length idone) = i * P + j -> (length vs <= ir)%nat -> Z.of_nat (length d1) = i * P * H + j * H -> Z.of_nat (length vs) * H <= Z.of_nat r1 ->
  exists ipl new, beam_ips P H i D vs j (filled idone ir) (two d1 r1 d2 r2) o = OK (filled (idone ++ ipl) (ir - length vs), two (d1 ++ new) (r1 - length vs * Z.to_nat H) d2 r2, o + Z.of_nat (length vs) * H) /\
    length ipl = length vs /\ Z.of_nat (length new) = Z.of_nat (length vs) * H /\
    forall k x v, nth_error ipl k = Some x -> nth_error vs k = Some v -> ip_values x = v /\ holds (d1 ++ new) (ip_hist x) (nums b (pos + o + Z.of_nat k * H) H).
Proof.
  intros I. induction vs as [|v vs IH]; intros j idone ir d1 r1 d2 r2 o J O Lo Li Lir Ld Lr.
  - exists [], []. cbn [beam_ips length Nat.mul]. rewrite !app_nil_r, !Nat.sub_0_r. split; [do 2 f_equal; lia|]. split; [reflexivity|]. split; [reflexivity|]. intros [|k] x v E; discriminate E.
  - cbn [length] in *. rewrite Nat2Z.inj_succ, Z.mul_succ_l in Lo, Lr. assert (0 <= Z.of_nat (length vs) * H) by (apply Z.mul_nonneg_nonneg; lia).
    cbn [beam_ips]. unfold D. rewrite take_nums by lia. cbn [bind]. rewrite store_first by (rewrite ?nums_length; lia). cbn [bind]. rewrite store_filled by (cbn [length]; lia). cbn [bind]. fold D. rewrite nums_length. cbn [length].
    set (x0 := {| ip_values := v; ip_hist := i * P * H + j * H |}). set (h := nums b (pos + o) H).
    destruct (IH (j + 1) (idone ++ [x0]) (ir - 1)%nat (d1 ++ h) (r1 - Z.to_nat H)%nat d2 r2 (o + H)) as (ipl & new & Q & Lp & Ln & Hx); try lia.
    + rewrite app_length. cbn [length]. lia.
    + rewrite app_length. unfold h. rewrite nums_length. lia.
    + rewrite Q. exists (x0 :: ipl), (h ++ new). rewrite <- !app_assoc. cbn [app]. split; [|split; [|split]].
      * replace (r1 - Z.to_nat H - length vs * Z.to_nat H)%nat with (r1 - S (length vs) * Z.to_nat H)%nat by (cbn [Nat.mul]; lia). replace (ir - 1 - length vs)%nat with (ir - S (length vs))%nat by lia. do 2 f_equal. lia.
      * cbn [length]. lia.
      * rewrite app_length. unfold h. rewrite nums_length. lia.
      * intros [|k] x w Ex Ev; cbn [nth_error] in Ex, Ev.
        -- injection Ex as <-. injection Ev as <-. split; [reflexivity|]. cbn [ip_hist x0]. rewrite Z.mul_0_l, Z.add_0_r. rewrite app_assoc. apply holds_more, holds_new. symmetry. exact Ld.
        -- destruct (Hx k x w Ex Ev) as (V & Hh). split; [exact V|]. rewrite app_assoc. replace (pos + o + Z.of_nat (S k) * H) with (pos + (o + H) + Z.of_nat k * H) by lia. exact Hh.
Qed.
(** A beam as it must be at [p]. *)
Definition beam_ok (d1 d2 : list Z) (idone : list beam_ip) (p : Z) (s : beam) : Prop :=
  be_resultants s = nums b p 6 /\ be_nip s = P /\ be_nhv s = H /\
  (exists ipl, holds idone (be_ips s) ipl /\ Z.of_nat (length ipl) = P /\ forall k x, nth_error ipl k = Some x -> ip_values x = nums b (p + 6 + 5 * Z.of_nat k) 5 /\ holds d1 (ip_hist x) (nums b (p + 6 + 5 * P + 3 * H + Z.of_nat k * H) H)) /\
  (exists k, be_avg s = avg + k /\ holds d2 k (nums b (p + 6 + 5 * P) H)) /\ (exists k, be_min s = avg + k /\ holds d2 k (nums b (p + 6 + 5 * P + H) H)) /\ (exists k, be_max s = avg + k /\ holds d2 k (nums b (p + 6 + 5 * P + 2 * H) H)).
Lemma beam_ok_more d1 m1 d2 m2 idone mi p s : beam_ok d1 d2 idone p s -> beam_ok (d1 ++ m1) (d2 ++ m2) (idone ++ mi) p s.
Proof.
  intros (B1 & B2 & B3 & (ipl & B4 & B5 & B6) & (k0 & K0 & H0) & (k1 & K1 & H1) & (k2 & K2 & H2)). split; [exact B1|]. split; [exact B2|]. split; [exact B3|]. split; [|split; [|split]].
  - exists ipl. split; [apply holds_more; exact B4|]. split; [exact B5|]. intros k x K. destruct (B6 k x K) as (V & Hh). split; [exact V|apply holds_more; exact Hh].
  - exists k0. split; [exact K0|apply holds_more; exact H0].
  - exists k1. split; [exact K1|apply holds_more; exact H1].
  - exists k2. split; [exact K2|apply holds_more; exact H2].
Qed.
Definition bw : Z := 6 + 3 * H + P * (5 + H).
Lemma beam_loop_ok : forall n i idone ir d1 r1 d2 r2, 0 <= i -> (i + Z.of_nat n) * bw <= N ->
  Z.of_nat (length idone) = i * P -> Z.of_nat n * P <= Z.of_nat ir -> Z.of_nat (length d1) = i * P * H -> Z.of_nat n * P * H <= Z.of_nat r1 -> Z.of_nat (length d1 + r1) = avg ->
  Z.of_nat (length d2) = i * 3 * H -> Z.of_nat n * 3 * H <= Z.of_nat r2 ->
  exists l ni n1 n2 ir' r1' r2', beam_loop P H avg D n i (filled idone ir) (two d1 r1 d2 r2) (i * bw) = OK (l, filled (idone ++ ni) ir', two (d1 ++ n1) r1' (d2 ++ n2) r2', (i + Z.of_nat n) * bw) /\
    Z.of_nat (length (d1 ++ n1) + r1') = avg /\ length l = n /\ forall k s, nth_error l k = Some s -> beam_ok (d1 ++ n1) (d2 ++ n2) (idone ++ ni) (pos + (i + Z.of_nat k) * bw) s.
Proof.
  assert (Ph : 0 <= P * H) by (apply Z.mul_nonneg_nonneg; lia). assert (Wn : 0 <= bw) by (unfold bw; lia).
  induction n as [|n IH]; intros i idone ir d1 r1 d2 r2 I L Li Lir Ld Lr Av L2 Lr2.
  - exists [], [], [], [], ir, r1, r2. rewrite !app_nil_r, Z.add_0_r. split; [reflexivity|]. split; [exact Av|]. split; [reflexivity|]. intros [|k] s E; discriminate E.
  - assert (L1 : (i + 1) * bw <= N) by (apply Z.le_trans with (2 := L); apply Z.mul_le_mono_nonneg_r; lia). assert (I0 : 0 <= i * bw) by (apply Z.mul_nonneg_nonneg; lia). rewrite Z.mul_add_distr_r, Z.mul_1_l in L1.
    assert (Ph2 : 0 <= Z.of_nat n * (P * H)) by (apply Z.mul_nonneg_nonneg; lia). assert (Pn2 : 0 <= Z.of_nat n * P) by (apply Z.mul_nonneg_nonneg; lia). assert (Hn2 : 0 <= Z.of_nat n * H) by (apply Z.mul_nonneg_nonneg; lia).
    rewrite Nat2Z.inj_succ in Lir, Lr, Lr2. assert (Lir' : P + Z.of_nat n * P <= Z.of_nat ir) by lia. assert (Lr' : P * H + Z.of_nat n * (P * H) <= Z.of_nat r1) by lia. assert (Lr2' : 3 * H + 3 * (Z.of_nat n * H) <= Z.of_nat r2) by lia.
    set (o := i * bw) in *. assert (Ew : bw = 6 + 5 * P + 3 * H + P * H) by (unfold bw; ring). rewrite Ew in L1.
    cbn [beam_loop]. unfold D. rewrite take_nums by lia. cbn [bind]. fold D. rewrite beam_values_ok by lia. cbn [bind]. rewrite Z2Nat.id by lia.
    set (vs := map (fun k : nat => nums b (pos + (o + 6) + 5 * Z.of_nat k) 5) (seq 0 (Z.to_nat P))). assert (Lvs : length vs = Z.to_nat P) by (unfold vs; rewrite map_length, seq_length; reflexivity).
    assert (Vk : forall k v, nth_error vs k = Some v -> v = nums b (pos + o + 6 + 5 * Z.of_nat k) 5).
    { intros k v E. assert (K : (k < Z.to_nat P)%nat) by (rewrite <- Lvs; apply nth_error_Some; rewrite E; discriminate). unfold vs in E. rewrite nth_error_map, (nth_error_nth' _ O) in E by (rewrite seq_length; lia). rewrite seq_nth in E by lia. cbn [option_map] in E. apply some_inj in E. rewrite <- E. rewrite Nat.add_0_l, Z.add_assoc. reflexivity. }
    unfold D. rewrite take_nums by lia. cbn [bind]. rewrite store_second by (rewrite ?nums_length; lia). cbn [bind]. rewrite take_nums by lia. cbn [bind]. rewrite nums_length.
    rewrite store_second by (rewrite ?app_length, ?nums_length; lia). cbn [bind]. rewrite take_nums by lia. cbn [bind]. rewrite nums_length. rewrite store_second by (rewrite ?app_length, ?nums_length; lia). cbn [bind]. rewrite nums_length. fold D.
    set (h0 := nums b (pos + (o + 6 + 5 * P)) H). set (h1 := nums b (pos + (o + 6 + 5 * P + H)) H). set (h2 := nums b (pos + (o + 6 + 5 * P + H + H)) H).
    assert (Lh0 : Z.of_nat (length h0) = H) by (unfold h0; rewrite nums_length; lia). assert (Lh1 : Z.of_nat (length h1) = H) by (unfold h1; rewrite nums_length; lia). assert (Lh2 : Z.of_nat (length h2) = H) by (unfold h2; rewrite nums_length; lia).
    destruct (beam_ips_ok i I vs 0 idone ir d1 r1 (((d2 ++ h0) ++ h1) ++ h2) (r2 - Z.to_nat H - Z.to_nat H - Z.to_nat H)%nat (o + 6 + 5 * P + H + H + H)) as (ipl & new & Q & Lp & Ln & Hx); try (rewrite ?Lvs, ?Z2Nat.id by lia; lia).
    rewrite Q. cbn [bind]. rewrite Lvs in *. rewrite Z2Nat.id in * by lia. replace (o + 6 + 5 * P + H + H + H + P * H) with ((i + 1) * bw) by (unfold o; rewrite Ew; ring).
    destruct (IH (i + 1) (idone ++ ipl) (ir - Z.to_nat P)%nat (d1 ++ new) (r1 - Z.to_nat P * Z.to_nat H)%nat (((d2 ++ h0) ++ h1) ++ h2) (r2 - Z.to_nat H - Z.to_nat H - Z.to_nat H)%nat) as (l & ni & n1 & n2 & ir' & r1' & r2' & Q' & Av' & Ll & Hl).
    + lia.
    + rewrite Nat2Z.inj_succ in L. replace (i + 1 + Z.of_nat n) with (i + Z.succ (Z.of_nat n)) by lia. exact L.
    + rewrite app_length. lia.
    + lia.
    + rewrite app_length. lia.
    + rewrite <- Z2Nat.inj_mul by lia. lia.
    + rewrite app_length. rewrite <- Z2Nat.inj_mul by lia. lia.
    + rewrite !app_length. lia.
    + lia.
    + rewrite Q'. cbn [bind]. exists ({| be_resultants := nums b (pos + o) 6; be_ips := i * P; be_avg := avg + i * 3 * H + 0 * H; be_min := avg + i * 3 * H + 1 * H; be_max := avg + i * 3 * H + 2 * H; be_nhv := H; be_nip := P |} :: l), (ipl ++ ni), (new ++ n1), (h0 ++ h1 ++ h2 ++ n2), ir', r1', r2'.
      replace (d2 ++ h0 ++ h1 ++ h2 ++ n2) with ((((d2 ++ h0) ++ h1) ++ h2) ++ n2) by (rewrite !app_assoc; reflexivity). rewrite !(app_assoc idone), !(app_assoc d1). split; [|split; [exact Av'|split]].
      * replace (i + 1 + Z.of_nat n) with (i + Z.of_nat (S n)) by lia. reflexivity.
      * cbn [length]. rewrite Ll. reflexivity.
      * intros [|k] s E; cbn [nth_error] in E.
        -- apply some_inj in E. subst s. apply beam_ok_more. rewrite Z.add_0_r. fold o. split; [reflexivity|]. split; [reflexivity|]. split; [reflexivity|]. cbn [be_ips be_avg be_min be_max]. split; [|split; [|split]].
           ++ exists ipl. split; [apply holds_new; lia|]. split; [lia|]. intros k x K. assert (Kl : (k < Z.to_nat P)%nat) by (rewrite <- Lp; apply nth_error_Some; rewrite K; discriminate).
              destruct (nth_error vs k) as [v|] eqn:Ev; [|apply nth_error_None in Ev; lia]. destruct (Hx k x v K Ev) as (E1 & E2). rewrite E1, (Vk k v Ev). split; [reflexivity|]. replace (pos + o + 6 + 5 * P + 3 * H + Z.of_nat k * H) with (pos + (o + 6 + 5 * P + H + H + H) + Z.of_nat k * H) by ring. exact E2.
           ++ exists (i * 3 * H). split; [ring|]. rewrite <- !app_assoc. rewrite (app_assoc d2). apply holds_more. replace (pos + o + 6 + 5 * P) with (pos + (o + 6 + 5 * P)) by ring. fold h0. apply holds_new. lia.
           ++ exists (i * 3 * H + H). split; [ring|]. apply holds_more. replace (pos + o + 6 + 5 * P + H) with (pos + (o + 6 + 5 * P + H)) by ring. fold h1. apply holds_new. rewrite app_length. lia.
           ++ exists (i * 3 * H + 2 * H). split; [ring|]. replace (pos + o + 6 + 5 * P + 2 * H) with (pos + (o + 6 + 5 * P + H + H)) by ring. fold h2. apply holds_new. rewrite !app_length. lia.
        -- specialize (Hl k s E). replace (i + Z.of_nat (S k)) with (i + 1 + Z.of_nat k) by lia. exact Hl.
Qed.
Lemma beam_seen d1 r1 d2 r2 idone ir p s : H = cval b NEIPB -> Z.of_nat (length d1 + r1) = avg -> beam_ok d1 d2 idone p s -> see_beam (filled idone ir) (two d1 r1 d2 r2) s = Some (beam_spec b P p).
Proof.
  intros Eh Av (B1 & B2 & B3 & (ipl & B4 & B5 & B6) & (k0 & K0 & H0) & (k1 & K1 & H1) & (k2 & K2 & H2)). unfold see_beam. rewrite B1, B2, B3, K0, K1, K2.
  assert (Second : forall k v, holds d2 k v -> Z.of_nat (length v) = H -> see (two d1 r1 d2 r2) (avg + k) H = Some v).
  { intros k v Hv Lv. unfold two. rewrite <- Av, <- (filled_length d1 r1). rewrite see_behind by (destruct Hv as (pre & post & _ & <-); lia). unfold filled. apply holds_see; [symmetry; exact Lv|exact Hv]. }
  assert (First : forall k v, holds d1 k v -> Z.of_nat (length v) = H -> see (two d1 r1 d2 r2) k H = Some v).
  { intros k v Hv Lv. unfold two, filled. rewrite <- !app_assoc. apply holds_see; [symmetry; exact Lv|exact Hv]. }
  assert (Ln : forall q, Z.of_nat (length (nums b q H)) = H) by (intros q; rewrite nums_length; lia).
  rewrite (Second k0 _ H0 (Ln _)), (Second k1 _ H1 (Ln _)), (Second k2 _ H2 (Ln _)). unfold filled at 1. rewrite (holds_see idone (be_ips s) ipl) by (auto; lia).
  assert (G : all (map (fun p0 : beam_ip => match see (two d1 r1 d2 r2) (ip_hist p0) H with Some h => Some (ip_values p0, h) | None => None end) ipl) =
    Some (each P (fun j => (nums b (p + 6 + 5 * j) 5, nums b (p + 6 + 5 * P + 3 * H + j * H) H)))).
  { apply all_map; [rewrite each_length; lia|]. intros k x v Kx Kv. apply each_nth_inv in Kv as (_ & ->). destruct (B6 k x Kx) as (E1 & E2). rewrite (First _ _ E2 (Ln _)), E1. reflexivity. }
  rewrite G. unfold beam_spec. rewrite <- Eh. reflexivity.
Qed.
End Beams.

Section Read.
Context (b : dbuf) (titles : Z) (states : list Z) (pl : plot) (V : view b titles states pl).
Let Su := v_su _ _ _ _ V. Let Rg := v_rg _ _ _ _ V. Let So := su_sound b Su.
Ltac nn f := pose proof (nonneg b Su f ltac:(discriminate) ltac:(discriminate)).
Lemma beams_none s : cval b NEL2 = 0 -> read_beams_state pl s = OK (clear pl, None).
Proof. intros Hn. unfold read_beams_state. change (pl_cd (clear pl)) with (pl_cd pl). rewrite !(v_cd _ _ _ _ V). cbn [control_value]. rewrite Hn. reflexivity. Qed.
Lemma beams_out s : 0 < cval b NEL2 -> (length states <= s)%nat -> read_beams_state pl s = OK (with_err pl (Some P_state), None).
Proof.
  intros Hn L. unfold read_beams_state. change (pl_cd (clear pl)) with (pl_cd pl). rewrite !(v_cd _ _ _ _ V). cbn [control_value].
  destruct (Z.eqb_spec (cval b NEL2) 0); [lia|]. unfold state_at. change (pl_states (clear pl)) with (pl_states pl). rewrite (v_states _ _ _ _ V). apply nth_error_None in L. rewrite L. reflexivity.
Qed.
(** The number of integration points that fit. *)
Definition fit : Z := (cval b NV1D - 6 - 3 * cval b NEIPB) / (5 + cval b NEIPB).
Lemma beams_error s p : nth_error states s = Some p -> 0 < cval b NEL2 -> cval b NV1D < 6 + 3 * cval b NEIPB \/ 255 < cval b NEIPB \/ 255 < fit -> read_beams_state pl s = OK (with_err pl (Some P_beam), None).
Proof.
  intros Hs Hn C. unfold read_beams_state. change (pl_cd (clear pl)) with (pl_cd pl). rewrite !(v_cd _ _ _ _ V). cbn [control_value].
  destruct (Z.eqb_spec (cval b NEL2) 0); [lia|]. unfold state_at. change (pl_states (clear pl)) with (pl_states pl). rewrite (v_states _ _ _ _ V), Hs.
  destruct (Z.ltb_spec 255 (cval b NEIPB)); [reflexivity|]. cbn [orb]. nn NEIPB. nn NV1D. pose proof (cval_unsigned b Su NV1D ltac:(discriminate) ltac:(discriminate)) as Wb.
  assert (G : 255 < u64 (cval b NV1D - 6 - 3 * cval b NEIPB) / (5 + cval b NEIPB)).
  { unfold u64. destruct (Z_lt_le_dec (cval b NV1D) (6 + 3 * cval b NEIPB)) as [C'|C'].
    - replace ((cval b NV1D - 6 - 3 * cval b NEIPB) mod 2 ^ 64) with (cval b NV1D - 6 - 3 * cval b NEIPB + 2 ^ 64) by (apply (Z.mod_unique _ _ (-1)); lia).
      apply Z.lt_le_trans with 256; [lia|]. apply Z.div_le_lower_bound; [lia|]. nia.
    - rewrite Z.mod_small by lia. unfold fit in C. lia. }
  destruct (Z.ltb_spec 255 (u64 (cval b NV1D - 6 - 3 * cval b NEIPB) / (5 + cval b NEIPB))); [reflexivity|lia].
Qed.
Lemma beam_run s p : nth_error states s = Some p -> 0 < cval b NEL2 -> 6 + 3 * cval b NEIPB <= cval b NV1D -> cval b NEIPB <= 255 -> fit <= 255 ->
  exists l idone d1 d2 ir r1 r2, length l = Z.to_nat (cval b NEL2) /\ Z.of_nat (length d1 + r1) = cval b NEL2 * fit * cval b NEIPB /\
    (forall k x, nth_error l k = Some x -> beam_ok b fit (cval b NEIPB) (cval b NEL2 * fit * cval b NEIPB) d1 d2 idone (p + s_beam b + Z.of_nat k * bw fit (cval b NEIPB)) x) /\
    read_beams_state pl s = (if cval b NEL2 * bw fit (cval b NEIPB) =? cval b NEL2 * cval b NV1D then OK (clear pl, Some (l, filled idone ir, two d1 r1 d2 r2)) else OK (with_err pl (Some P_sanity), None)).
Proof.
  intros Hs Hn Hv Hh Hf. pose proof (s_order b titles states pl V) as Od. pose proof (nonneg b Su NV1D ltac:(discriminate) ltac:(discriminate)) as Nv. pose proof (nonneg b Su NEIPB ltac:(discriminate) ltac:(discriminate)) as Nb. pose proof (cval_unsigned b Su NV1D ltac:(discriminate) ltac:(discriminate)) as Wb.
  assert (Es : s_shell b = s_beam b + cval b NV1D * cval b NEL2) by reflexivity.
  destruct (elem_words b titles states pl V (cval b NEL2) (cval b NV1D) (s_beam b) s p Hs) as (Q & Sm & E); [nia|lia|lia|].
  assert (Ef : u64 (cval b NV1D - 6 - 3 * cval b NEIPB) / (5 + cval b NEIPB) = fit) by (unfold fit; rewrite u64_id by lia; reflexivity).
  assert (F0 : 0 <= fit) by (unfold fit; apply Z.div_pos; lia). assert (Bw : bw fit (cval b NEIPB) <= cval b NV1D) by (unfold bw, fit; pose proof (Z.mul_div_le (cval b NV1D - 6 - 3 * cval b NEIPB) (5 + cval b NEIPB) ltac:(lia)); lia).
  set (H := cval b NEIPB) in *. set (P := fit) in *. set (n := cval b NEL2) in *. assert (Ph : 0 <= P * H) by (apply Z.mul_nonneg_nonneg; lia). assert (Nph : 0 <= n * (P * H)) by (apply Z.mul_nonneg_nonneg; lia). assert (Nh : 0 <= n * H) by (apply Z.mul_nonneg_nonneg; lia). assert (Np : 0 <= n * P) by (apply Z.mul_nonneg_nonneg; lia).
  destruct (beam_loop_ok b (p + s_beam b) (n * cval b NV1D) P H (n * P * H) F0 ltac:(lia) (Z.to_nat n) 0 [] (Z.to_nat (n * P)) [] (Z.to_nat (n * P * H)) [] (Z.to_nat (n * 3 * H))) as (l & ni & n1 & n2 & ir' & r1' & r2' & Q' & Av' & Ll & Hl);
    try (cbn [length]; rewrite ?Z2Nat.id by lia; lia).
  - rewrite Z2Nat.id by lia. rewrite Z.add_0_l. apply Z.mul_le_mono_nonneg_l; lia.
  - exists l, ni, n1, n2, ir', r1', r2'. split; [exact Ll|]. split; [exact Av'|]. split; [intros k x K; apply (Hl k x K)|].
    unfold read_beams_state. change (pl_cd (clear pl)) with (pl_cd pl). rewrite !(v_cd _ _ _ _ V). cbn [control_value]. fold H n. rewrite Ef.
    destruct (Z.eqb_spec n 0); [lia|]. unfold state_at. change (pl_states (clear pl)) with (pl_states pl). rewrite (v_states _ _ _ _ V), Hs.
    destruct (Z.ltb_spec 255 H); [lia|]. destruct (Z.ltb_spec 255 P); [lia|]. cbn [orb]. assert (Eu : u8 P = P) by (unfold u8; apply Z.mod_small; lia). assert (Eh : u8 H = H) by (unfold u8; apply Z.mod_small; lia). rewrite Eu, Eh.
    change (pl_ptr (clear pl)) with (pl_ptr pl). rewrite (v_ptr _ _ _ _ V K_STATE_BEAM (or_intror (nonempty b titles states pl V s p Hs))). cbn [table state_ptr]. rewrite Q. cbn [bind].
    assert (Fr : fresh Z (n * H * (3 + P)) = two [] (Z.to_nat (n * P * H)) [] (Z.to_nat (n * 3 * H))) by (unfold fresh, two, filled; cbn [map app]; rewrite <- repeat_app; f_equal; lia).
    rewrite Fr. change (fresh beam_ip (n * P)) with (filled (@nil beam_ip) (Z.to_nat (n * P))). rewrite Z.mul_0_l in Q'. rewrite Q'. cbn [bind app]. rewrite Z2Nat.id, Z.add_0_l by lia.
    change (pl_cd (clear pl)) with (pl_cd pl). rewrite !(v_cd _ _ _ _ V). cbn [control_value]. rewrite (Z.mul_comm (cval b NV1D)). fold n. rewrite E. reflexivity.
Qed.
Lemma beams_ok s p nip : nth_error states s = Some p -> 0 < cval b NEL2 -> 0 <= nip <= 255 -> cval b NEIPB <= 255 -> cval b NV1D = 6 + 3 * cval b NEIPB + nip * (5 + cval b NEIPB) ->
  exists l ips hist, read_beams_state pl s = OK (clear pl, Some (l, ips, hist)) /\ map (see_beam ips hist) l = map Some (each (cval b NEL2) (fun i => beam_spec b nip (p + s_beam b + i * cval b NV1D))).
Proof.
  intros Hs Hn Hp Hh Hv. nn NEIPB. assert (Ef : fit = nip) by (unfold fit; replace (cval b NV1D - 6 - 3 * cval b NEIPB) with (nip * (5 + cval b NEIPB)) by lia; apply Z.div_mul; lia).
  destruct (beam_run s p Hs Hn ltac:(nia) Hh ltac:(lia)) as (l & idone & d1 & d2 & ir & r1 & r2 & Ll & Av & Hl & Q). rewrite Ef in *. fold (bw nip (cval b NEIPB)) in Hv. rewrite <- Hv, Z.eqb_refl in Q. exists l, (filled idone ir), (two d1 r1 d2 r2). split; [exact Q|].
  apply each_seen; [rewrite each_length; exact Ll|]. intros k x y Kx Ky. apply each_nth_inv in Ky as (_ & ->). rewrite Hv. apply (beam_seen b nip (cval b NEIPB) (cval b NEL2 * nip * cval b NEIPB)); try exact Av; try reflexivity; try lia. apply Hl. exact Kx.
Qed.
Lemma beams_small s p : nth_error states s = Some p -> 0 < cval b NEL2 -> 6 + 3 * cval b NEIPB <= cval b NV1D -> cval b NEIPB <= 255 -> fit <= 255 -> (cval b NV1D - 6 - 3 * cval b NEIPB) mod (5 + cval b NEIPB) <> 0 ->
  read_beams_state pl s = OK (with_err pl (Some P_sanity), None).
Proof.
  intros Hs Hn Hv Hh Hf Hm. destruct (beam_run s p Hs Hn Hv Hh Hf) as (l & idone & d1 & d2 & ir & r1 & r2 & Ll & Av & Hl & Q). rewrite Q. nn NEIPB.
  destruct (Z.eqb_spec (cval b NEL2 * bw fit (cval b NEIPB)) (cval b NEL2 * cval b NV1D)) as [E|]; [|reflexivity]. exfalso. apply Z.mul_reg_l in E; [|lia]. unfold bw in E. apply Hm. rewrite <- E. replace (6 + 3 * cval b NEIPB + fit * (5 + cval b NEIPB) - 6 - 3 * cval b NEIPB) with (fit * (5 + cval b NEIPB)) by ring. apply Z.mod_mul. lia.
Qed.
End Read.
