(** * Proofs about integration points, shells and thick shells *)
From Verif Require Import CBase CBaseFacts BinModel D3BufModel D3BufSpec D3BufProofs D3Model D3Spec D3CurProofs D3OpenProofs D3SectProofs D3StateProofs D3ReadModel D3ReadSpec D3ReadProofs D3ElemModel D3ElemSpec D3ElemProofs.
Open Scope Z_scope.

(** ** Memory that is filled from the beginning *)
Definition filled {A} (done : list A) (r : nat) : cells A := map Some done ++ repeat None r.
Lemma filled_fresh A n : fresh A n = filled (@nil A) (Z.to_nat n).
Proof. reflexivity. Qed.
Lemma filled_length {A} (done : list A) r : length (filled done r) = (length done + r)%nat.
Proof. unfold filled. rewrite app_length, map_length, repeat_length. reflexivity. Qed.
Lemma store_filled {A} (done l : list A) r off : off = Z.of_nat (length done) -> (length l <= r)%nat -> store (filled done r) off l = OK (filled (done ++ l) (r - length l)).
Proof.
  intros -> L. unfold store. rewrite filled_length. destruct (Z.leb_spec 0 (Z.of_nat (length done))); [|lia]. destruct (Z.leb_spec (Z.of_nat (length done) + Z.of_nat (length l)) (Z.of_nat (length done + r))); [|lia]. cbn [andb].
  rewrite Nat2Z.id. unfold filled. f_equal. rewrite firstn_app, map_length, Nat.sub_diag, firstn_O, app_nil_r. rewrite (firstn_all2 (map Some done)) by (rewrite map_length; lia).
  rewrite map_app, <- app_assoc. do 2 f_equal. rewrite skipn_app, map_length. rewrite skipn_all2 by (rewrite map_length; lia). cbn [app]. replace (length done + length l - length done)%nat with (length l) by lia.
  clear H H0. revert r L. induction (length l) as [|n IH]; intros r L; [rewrite Nat.sub_0_r; reflexivity|]. destruct r as [|r]; [lia|]. cbn [repeat skipn]. rewrite IH by lia. reflexivity.
Qed.
Lemma all_some {A} (l : list A) : all (map Some l) = Some l.
Proof. induction l as [|x l IH]; [reflexivity|]. cbn [map all]. rewrite IH. reflexivity. Qed.
Lemma see_done {A} (a l c : list A) rest : see (map Some (a ++ l ++ c) ++ rest) (Z.of_nat (length a)) (Z.of_nat (length l)) = Some l.
Proof.
  unfold see. rewrite app_length, map_length, !app_length. destruct (Z.leb_spec 0 (Z.of_nat (length a))); [|lia].
  destruct (Z.leb_spec (Z.of_nat (length a) + Z.of_nat (length l)) (Z.of_nat (length a + (length l + length c) + length rest))); [|lia]. cbn [andb].
  rewrite !Nat2Z.id, map_app, <- app_assoc. rewrite skipn_app, map_length, Nat.sub_diag, skipn_all2 by (rewrite map_length; lia). cbn [app skipn]. rewrite map_app, <- app_assoc, firstn_app, map_length, Nat.sub_diag, firstn_O, app_nil_r.
  rewrite firstn_all2 by (rewrite map_length; lia). apply all_some.
Qed.
Lemma see_zero {A} (a : list A) rest : see (map Some a ++ rest) (Z.of_nat (length a)) 0 = Some [].
Proof. pose proof (see_done a [] [] rest) as G. rewrite !app_nil_r in G. exact G. Qed.
Lemma all_map {A B} (f : A -> option B) (l : list A) (vs : list B) : length vs = length l -> (forall k x v, nth_error l k = Some x -> nth_error vs k = Some v -> f x = Some v) -> all (map f l) = Some vs.
Proof.
  revert vs. induction l as [|x l IH]; intros [|v vs] L F; try discriminate L; [reflexivity|]. cbn [map all]. rewrite (F O x v eq_refl eq_refl). rewrite (IH vs); [reflexivity|injection L; auto|]. intros k. apply (F (S k)).
Qed.
Lemma each_length {A} n (f : Z -> A) : length (each n f) = Z.to_nat n.
Proof. unfold each. rewrite map_length, seq_length. reflexivity. Qed.
Lemma each_nth {A} n (f : Z -> A) k : (k < Z.to_nat n)%nat -> nth_error (each n f) k = Some (f (Z.of_nat k)).
Proof. intros L. unfold each. rewrite nth_error_map. rewrite (nth_error_nth' _ O) by (rewrite seq_length; lia). rewrite seq_nth by lia. reflexivity. Qed.
Lemma each_nth_inv {A} n (f : Z -> A) k v : nth_error (each n f) k = Some v -> (k < Z.to_nat n)%nat /\ v = f (Z.of_nat k).
Proof.
  intros E. assert (L : (k < Z.to_nat n)%nat) by (rewrite <- (each_length n f); apply nth_error_Some; rewrite E; discriminate). split; [exact L|]. rewrite each_nth in E by exact L. congruence.
Qed.

Section Layers.
Context (b : dbuf) (pos N : Z) (Nn : 0 <= cval b NEIPS) (P : Z) (PP : 0 <= P).
Let f0 := ioshl (cval b IOSHL0). Let f1 := ioshl (cval b IOSHL1). Let H := cval b NEIPS.
Definition the_shape : shape := {| nip := P; nhv := H; stress := negb (f0 =? 0); plastic := negb (f1 =? 0) |}.
Let c := the_shape.
Let D := nums b pos N.
Lemma bits01 : bit f0 /\ bit f1 /\ 0 <= f0 <= 1 /\ 0 <= f1 <= 1.
Proof. pose proof (ioshl_bit (cval b IOSHL0)) as B0. pose proof (ioshl_bit (cval b IOSHL1)) as B1. fold f0 in B0. fold f1 in B1. repeat split; auto; destruct B0, B1; lia. Qed.
Lemma ip_words_eq : ip_words b = 6 * f0 + f1 + H.
Proof. reflexivity. Qed.

(** One integration point *)
Lemma surface_at_ok i j o done r : 0 <= o -> o + ip_words b <= N -> Z.of_nat (length done) = i * P * H + j * H -> H <= Z.of_nat r ->
  exists sf, surface_at c D (filled done r) i j o = OK (sf, filled (done ++ v_history (surface_spec b (pos + o))) (r - Z.to_nat H), o + ip_words b) /\
    forall rest, see_surface (map Some (done ++ v_history (surface_spec b (pos + o))) ++ rest) H sf = Some (surface_spec b (pos + o)).
Proof.
  intros O L Ld Lr. destruct bits01 as (B0 & B1 & P0 & P1). rewrite ip_words_eq in *. unfold surface_at, c, the_shape. cbn [stress plastic nhv nip]. unfold D.
  rewrite take_if_nums by (auto; lia). cbn [bind]. rewrite one_if_nums by (auto; lia). cbn [bind]. cbn [surface_spec v_history]. fold f0 f1 H. rewrite !Z.add_assoc.
  set (h := nums b (pos + o + 6 * f0 + f1) H). assert (Lh : length h = Z.to_nat H) by apply nums_length.
  destruct (Z.eqb_spec H 0) as [Hz|Hz].
  - assert (Eh : h = []) by (apply length_zero_iff_nil; lia). eexists. split.
    + rewrite Eh, app_nil_r, Hz, Nat.sub_0_r, Z.add_0_r. reflexivity.
    + intros rest. unfold see_surface. rewrite Hz. cbn [Z.eqb sf_sigma sf_plastic]. unfold surface_spec. fold f0 f1 H h. rewrite Eh. rewrite <- Z.add_assoc. reflexivity.
  - rewrite take_nums by lia. cbn [bind]. rewrite !Z.add_assoc. fold h. rewrite store_filled by (rewrite ?Lh; lia). cbn [bind]. eexists. split.
    + rewrite Lh. do 2 f_equal; lia.
    + intros rest. unfold see_surface. destruct (Z.eqb_spec H 0); [contradiction|]. cbn [sf_hist sf_sigma sf_plastic]. rewrite <- Ld.
      pose proof (see_done done h [] rest) as G. rewrite app_nil_r, Lh, Z2Nat.id in G by exact Nn. rewrite G. unfold surface_spec. fold f0 f1 H. reflexivity.
Qed.

(** The integration points of one element that were read *)
Definition shown (done : list Z) (adone : list surface) (l : layers) (k : nat) (v : surface_view) : Prop :=
  forall rest arest, match pointed (map Some adone ++ arest) l k with Some s => see_surface (map Some done ++ rest) H s | None => None end = Some v.
Lemma shown_more done more adone amore l k v : shown done adone l k v -> shown (done ++ more) (adone ++ amore) l k v.
Proof. intros S rest arest. rewrite !map_app, <- !app_assoc. apply S. Qed.

(** The offset of integration point [j] in the words of an element *)
Definition extra (after : option bool) : Z := match after with Some true => 12 | _ => 0 end.
Definition ip_off (after : option bool) (j : Z) : Z := j * ip_words b + (if j <? 3 then 0 else extra after).
(** The strains of a thick shell *)
Definition strains_ok (after : option bool) (o0 j : Z) (l : layers) : Prop :=
  match after with
  | None => l_strains l = None
  | Some w => j < 3 \/ l_strains l = Some (group b (if w then 1 else 0) (pos + o0 + 3 * ip_words b) 6, group b (if w then 1 else 0) (pos + o0 + 3 * ip_words b + 6) 6)
  end.
Lemma strains_at_ok (w : bool) o : 0 <= o -> o + 12 * (if w then 1 else 0) <= N ->
  strains_at w D o = OK (group b (if w then 1 else 0) (pos + o) 6, group b (if w then 1 else 0) (pos + o + 6) 6, o + 12 * (if w then 1 else 0)).
Proof.
  intros O L. unfold strains_at, D. pose proof (take_if_nums b pos N (if w then 1 else 0) o 12) as G. replace (negb ((if w then 1 else 0) =? 0)) with w in G by (destruct w; reflexivity).
  rewrite G by (destruct w; unfold bit; auto; lia). cbn [bind]. destruct w; [|reflexivity]. unfold group. cbn [Z.eqb].
  replace (nums b (pos + o) 12) with (nums b (pos + o) 6 ++ nums b (pos + o + 6) 6) by (symmetry; apply (nums_app b (pos + o) 6 6); lia).
  rewrite firstn_app, skipn_app, nums_length. change (6 - Z.to_nat 6)%nat with 0%nat. rewrite firstn_O, app_nil_r, skipn_O. rewrite firstn_all2 by (rewrite nums_length; apply le_n). rewrite skipn_all2 by (rewrite nums_length; apply le_n). reflexivity.
Qed.
Definition add_ok (i j : Z) (l : layers) : Prop := l_add l = if j <? 4 then None else Some (i * (P - 3)).
Lemma pointed_done (adone : list surface) sf arest a k : (Z.to_nat a + k)%nat = length adone -> match nth_error (map Some (adone ++ [sf]) ++ arest) (Z.to_nat a + k) with Some s => s | None => None end = Some sf.
Proof. intros E. rewrite E. rewrite map_app, <- app_assoc, nth_error_app2 by (rewrite map_length; lia). rewrite map_length, Nat.sub_diag. reflexivity. Qed.
Lemma set_ip_ok i j sf l adone ra : 0 <= j < P -> 0 <= i -> (3 <= P -> Z.of_nat (length adone) = i * (P - 3) + Z.max 0 (j - 3)) -> (3 <= j -> (1 <= ra)%nat) -> add_ok i j l ->
  exists l' anew ra', set_ip c i j sf l (filled adone ra) = OK (l', filled (adone ++ anew) ra') /\ l_strains l' = l_strains l /\ add_ok i (j + 1) l' /\
    Z.of_nat (length anew) = (if 3 <=? j then 1 else 0) /\ Z.of_nat ra' = Z.of_nat ra - (if 3 <=? j then 1 else 0) /\
    (forall arest, pointed (map Some (adone ++ anew) ++ arest) l' (Z.to_nat j) = Some sf) /\
    (forall k arest, (k < Z.to_nat j)%nat -> pointed (map Some (adone ++ anew) ++ arest) l' k = pointed (map Some (adone ++ anew) ++ arest) l k).
Proof.
  intros J I La Ra Ad. unfold set_ip. unfold add_ok in *.
  destruct (Z.eqb_spec j 0) as [->|]; [|destruct (Z.eqb_spec j 1) as [->|]; [|destruct (Z.eqb_spec j 2) as [->|]]].
  1-3: eexists _, [], ra; rewrite app_nil_r; split; [reflexivity|]; split; [reflexivity|]; split; [exact Ad|]; split; [reflexivity|]; split; [cbn; lia|]; split; [intros arest; reflexivity|];
    intros k arest Hk; (destruct k as [|[|k]]; [try reflexivity; exfalso; cbn in Hk; lia..|exfalso; cbn in Hk; lia]).
  assert (Ea : match l_add l with Some a => a | None => i * (nip c - 3) end = i * (P - 3)) by (rewrite Ad; destruct (j <? 4); reflexivity). rewrite Ea.
  rewrite (store_filled adone [sf] ra); [|lia|cbn [length]; lia]. cbn [bind length].
  eexists _, [sf], (ra - 1)%nat. split; [reflexivity|]. split; [reflexivity|]. split; [cbn [l_add]; destruct (Z.ltb_spec (j + 1) 4); [lia|reflexivity]|].
  destruct (Z.leb_spec 3 j); [|lia]. split; [reflexivity|]. split; [lia|]. split.
  - intros arest. destruct (Z.to_nat j) as [|[|[|k]]] eqn:Ek; [lia..|]. cbn [pointed l_add]. assert (0 <= i * (P - 3)) by (apply Z.mul_nonneg_nonneg; lia). destruct (Z.leb_spec 0 (i * (P - 3))); [|lia]. apply pointed_done. lia.
  - intros k arest Hk. destruct k as [|[|[|k]]]; try reflexivity. cbn [pointed l_add]. rewrite Ad. destruct (Z.ltb_spec j 4); [lia|reflexivity].
Qed.
Lemma ips_loop_ok after i o0 : 0 <= i -> 0 <= o0 -> o0 + ip_off after P <= N -> forall n j l done adone r ra, P = j + Z.of_nat n -> 0 <= j ->
  Z.of_nat (length done) = i * P * H + j * H -> Z.of_nat n * H <= Z.of_nat r ->
  (3 <= P -> Z.of_nat (length adone) = i * (P - 3) + Z.max 0 (j - 3)) -> (3 <= P -> P - Z.max 3 j <= Z.of_nat ra) -> add_ok i j l -> strains_ok after o0 j l ->
  (forall k, (k < Z.to_nat j)%nat -> shown done adone l k (surface_spec b (pos + o0 + ip_off after (Z.of_nat k)))) ->
  exists l' dnew anew, ips_loop c after D i n j l (filled done r) (filled adone ra) (o0 + ip_off after j) =
      OK (l', filled (done ++ dnew) (r - n * Z.to_nat H), filled (adone ++ anew) (ra - Z.to_nat (Z.max 0 (P - Z.max 3 j))), o0 + ip_off after P) /\
    Z.of_nat (length dnew) = Z.of_nat n * H /\ Z.of_nat (length anew) = Z.max 0 (P - Z.max 3 j) /\ strains_ok after o0 P l' /\ add_ok i P l' /\
    forall k, (k < Z.to_nat P)%nat -> shown (done ++ dnew) (adone ++ anew) l' k (surface_spec b (pos + o0 + ip_off after (Z.of_nat k))).
Proof.
  intros I O0 Lo. pose proof ip_words_eq as Ew. destruct bits01 as (_ & _ & P0 & P1). assert (Hn : 0 <= H) by exact Nn.
  assert (Mono : forall x y, 0 <= x <= y -> ip_off after x <= ip_off after y).
  { intros x y X. unfold ip_off. assert (x * ip_words b <= y * ip_words b) by (apply Z.mul_le_mono_nonneg_r; lia). destruct (Z.ltb_spec x 3), (Z.ltb_spec y 3); try lia; destruct after as [[]|]; cbn [extra]; lia. }
  induction n as [|n IH]; intros j l done adone r ra EP J Ld Lr La Lra Ad Sk Sh.
  - exists l, [], []. cbn [ips_loop]. rewrite !app_nil_r. assert (Ej : j = P) by lia. subst j. replace (Z.max 0 (P - Z.max 3 P)) with 0 by lia. rewrite !Nat.sub_0_r. cbn [Nat.mul length]. split; [reflexivity|]. split; [lia|]. split; [lia|]. split; [exact Sk|]. split; [exact Ad|exact Sh].
  - rewrite Nat2Z.inj_succ, Z.mul_succ_l in Lr. assert (Ln : 0 <= Z.of_nat n * H) by (apply Z.mul_nonneg_nonneg; lia).
    assert (Oj : 0 <= ip_off after j) by (pose proof (Mono 0 j ltac:(lia)) as G; unfold ip_off in G at 1; cbn in G; lia).
    assert (Onext : o0 + ip_off after j + ip_words b <= N).
    { pose proof (Mono (j + 1) P ltac:(lia)) as G. assert (ip_off after j + ip_words b <= ip_off after (j + 1)); [|lia]. unfold ip_off. destruct (Z.ltb_spec j 3), (Z.ltb_spec (j + 1) 3); try lia; destruct after as [[]|]; cbn [extra]; lia. }
    cbn [ips_loop]. destruct (surface_at_ok i j (o0 + ip_off after j) done r ltac:(lia) Onext Ld ltac:(lia)) as (sf & Q & Sf). rewrite Q. cbn [bind].
    set (v := surface_spec b (pos + (o0 + ip_off after j))) in *. set (h := v_history v) in *.
    assert (Lh : Z.of_nat (length h) = H) by (unfold h, v; cbn [surface_spec v_history]; rewrite nums_length; fold H; lia).
    destruct (set_ip_ok i j sf l adone ra ltac:(lia) I La ltac:(lia) Ad) as (l1 & anew & ra1 & Q1 & S1 & Ad1 & La1 & Lra1 & Pj & Pk). rewrite Q1. cbn [bind].
    assert (Fin : forall l2, l_mid l2 = l_mid l1 -> l_inner l2 = l_inner l1 -> l_outer l2 = l_outer l1 -> l_add l2 = l_add l1 -> strains_ok after o0 (j + 1) l2 ->
      exists l' dnew anew0, ips_loop c after D i n (j + 1) l2 (filled (done ++ h) (r - Z.to_nat H)) (filled (adone ++ anew) ra1) (o0 + ip_off after (j + 1)) =
        OK (l', filled (done ++ dnew) (r - S n * Z.to_nat H), filled (adone ++ anew0) (ra - Z.to_nat (Z.max 0 (P - Z.max 3 j))), o0 + ip_off after P) /\
      Z.of_nat (length dnew) = Z.of_nat (S n) * H /\ Z.of_nat (length anew0) = Z.max 0 (P - Z.max 3 j) /\ strains_ok after o0 P l' /\ add_ok i P l' /\
      forall k, (k < Z.to_nat P)%nat -> shown (done ++ dnew) (adone ++ anew0) l' k (surface_spec b (pos + o0 + ip_off after (Z.of_nat k)))).
    { intros l2 M1 M2 M3 M4 S2.
      assert (Pe : forall k ad, pointed ad l2 k = pointed ad l1 k) by (intros k ad; destruct k as [|[|[|k]]]; cbn [pointed]; rewrite ?M1, ?M2, ?M3, ?M4; reflexivity).
      destruct (IH (j + 1) l2 (done ++ h) (adone ++ anew) (r - Z.to_nat H)%nat ra1) as (l' & dn & an & Q' & L1' & L2' & S' & Ad' & Sh').
      - lia.
      - lia.
      - rewrite app_length, Nat2Z.inj_add, Ld, Lh. lia.
      - lia.
      - intros P3. rewrite app_length, Nat2Z.inj_add, La, La1 by exact P3. destruct (Z.leb_spec 3 j); lia.
      - intros P3. rewrite Lra1. specialize (Lra P3). destruct (Z.leb_spec 3 j); lia.
      - unfold add_ok in *. rewrite M4. exact Ad1.
      - exact S2.
      - intros k Hk rest arest. rewrite Pe. destruct (Nat.eq_dec k (Z.to_nat j)) as [-> | Nk].
        + rewrite Pj. rewrite Z2Nat.id by lia. rewrite <- Z.add_assoc. apply Sf.
        + rewrite Pk by lia. pose proof (shown_more done h adone anew l k _ (Sh k ltac:(lia))) as G. apply G.
      - exists l', (h ++ dn), (anew ++ an). rewrite !app_assoc. split; [|split; [|split; [|split; [exact S'|split; [exact Ad'|exact Sh']]]]].
        + rewrite Q'. replace (r - Z.to_nat H - n * Z.to_nat H)%nat with (r - S n * Z.to_nat H)%nat by (cbn [Nat.mul]; lia).
          replace (ra1 - Z.to_nat (Z.max 0 (P - Z.max 3 (j + 1))))%nat with (ra - Z.to_nat (Z.max 0 (P - Z.max 3 j)))%nat by (destruct (Z.leb_spec 3 j); lia). reflexivity.
        + rewrite app_length, Nat2Z.inj_add, L1', Lh. lia.
        + rewrite app_length, Nat2Z.inj_add, L2', La1. destruct (Z.leb_spec 3 j); lia. }
    assert (Plain : j <> 2 \/ extra after = 0 -> o0 + ip_off after j + ip_words b = o0 + ip_off after (j + 1)).
    { intros C. unfold ip_off. destruct (Z.ltb_spec j 3), (Z.ltb_spec (j + 1) 3); lia. }
    destruct after as [w|].
    + destruct (Z.eqb_spec j 2) as [->|Nj].
      * assert (Eo : ip_off (Some w) 2 = 2 * ip_words b) by (unfold ip_off; cbn; lia). assert (Eo3 : ip_off (Some w) (2 + 1) = 3 * ip_words b + 12 * (if w then 1 else 0)) by (unfold ip_off; change (2 + 1 <? 3) with false; cbn match; destruct w; cbn [extra]; lia).
        pose proof (Mono (2 + 1) P ltac:(lia)) as G. rewrite strains_at_ok by (rewrite ?Eo; lia). cbn [bind].
        destruct (Fin (with_strains l1 (group b (if w then 1 else 0) (pos + (o0 + ip_off (Some w) 2 + ip_words b)) 6, group b (if w then 1 else 0) (pos + (o0 + ip_off (Some w) 2 + ip_words b) + 6) 6))) as (l' & dn & an & Q' & Rest); try reflexivity.
        { right. cbn [with_strains l_strains]. rewrite Eo. replace (pos + (o0 + 2 * ip_words b + ip_words b)) with (pos + o0 + 3 * ip_words b) by lia. reflexivity. }
        exists l', dn, an. split; [|exact Rest]. rewrite <- Q'. f_equal. rewrite Eo, Eo3. lia.
      * cbn [bind]. rewrite Plain by auto. apply Fin; try reflexivity. unfold strains_ok in *. rewrite S1. destruct Sk as [Sk|Sk]; [left; lia|right; exact Sk].
    + cbn [bind]. rewrite Plain by auto. apply Fin; try reflexivity. unfold strains_ok in *. rewrite S1. exact Sk.
Qed.
End Layers.
