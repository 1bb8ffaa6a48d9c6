(** * Proofs about shells and thick shells *)
From Verif Require Import CBase CBaseFacts BinModel D3BufModel D3BufSpec D3BufProofs D3Model D3Spec D3CurProofs D3OpenProofs D3SectProofs D3StateProofs D3ReadModel D3ReadSpec D3ReadProofs D3ElemModel D3ElemSpec D3ElemProofs D3LayerProofs.
Open Scope Z_scope.

Lemma group_sub b f p n k m : 0 <= k -> 0 <= m -> k + m <= n -> firstn (Z.to_nat m) (skipn (Z.to_nat k) (group b f p n)) = group b f (p + k) m.
Proof.
  intros K M L. unfold group. destruct (f =? 0); [|apply nums_sub; lia].
  replace (Z.to_nat n) with (Z.to_nat k + (Z.to_nat m + Z.to_nat (n - k - m)))%nat by lia. rewrite !repeat_app. rewrite skipn_app, repeat_length, Nat.sub_diag, skipn_all2, skipn_O by (rewrite repeat_length; lia). cbn [app].
  rewrite firstn_app, repeat_length, Nat.sub_diag, firstn_O, app_nil_r. apply firstn_all2. rewrite repeat_length. lia.
Qed.
Lemma group_skip b f p n k : 0 <= k <= n -> skipn (Z.to_nat k) (group b f p n) = group b f (p + k) (n - k).
Proof.
  intros K. rewrite <- (group_sub b f p n k (n - k)) by lia. symmetry. apply firstn_all2. rewrite skipn_length. unfold group. destruct (f =? 0); [rewrite repeat_length|rewrite nums_length]; lia.
Qed.
Lemma group_hd b f p n : 0 < n -> hd 0 (group b f p n) = single b f p.
Proof. intros L. unfold group, single. destruct (f =? 0); [destruct (Z.to_nat n); reflexivity|]. rewrite nums_cons by exact L. reflexivity. Qed.
Lemma group_first b f p n m : 0 <= m <= n -> firstn (Z.to_nat m) (group b f p n) = group b f p m.
Proof. intros L. rewrite <- (skipn_O (group b f p n)). change 0%nat with (Z.to_nat 0). rewrite group_sub by lia. rewrite Z.add_0_r. reflexivity. Qed.

Lemma some_inj {A} (x y : A) : Some x = Some y -> x = y.
Proof. intros E. injection E as E. exact E. Qed.
(** A result that is OK satisfies [Q]; the model never runs out of fuel. *)
Definition safe {A} (r : res A) (Q : A -> Prop) : Prop := match r with OK x => Q x | UB => True | OOF => False end.
Lemma safe_bind {A B} (r : res A) (f : A -> res B) Q Q' : safe r Q -> (forall x, Q x -> safe (f x) Q') -> safe (bind r f) Q'.
Proof. destruct r as [x| |]; cbn; auto. Qed.
Lemma safe_weaken {A} (r : res A) (Q Q' : A -> Prop) : safe r Q -> (forall x, Q x -> Q' x) -> safe r Q'.
Proof. destruct r; cbn; auto. Qed.
Lemma take_safe d o n : 0 <= n -> safe (take d o n) (fun l => o + n <= Z.of_nat (length d) /\ Z.of_nat (length l) = n).
Proof.
  intros Nn. unfold take. destruct (Z.leb_spec 0 o); [|exact I]. destruct (Z.leb_spec (o + n) (Z.of_nat (length d))); [|exact I]. cbn. split; [lia|]. rewrite firstn_length, skipn_length. lia.
Qed.
Lemma take_if_safe w d o n : 0 <= n -> o <= Z.of_nat (length d) -> safe (take_if w d o n) (fun x => snd x = o + n * (if w then 1 else 0) /\ snd x <= Z.of_nat (length d)).
Proof.
  intros Nn O. unfold take_if. destruct w; [|cbn; lia]. eapply safe_bind; [apply take_safe; exact Nn|]. cbn. lia.
Qed.
Lemma one_if_safe w d o : o <= Z.of_nat (length d) -> safe (one_if w d o) (fun x => snd x = o + (if w then 1 else 0) /\ snd x <= Z.of_nat (length d)).
Proof. intros O. unfold one_if. eapply safe_bind; [apply (take_if_safe w d o 1); lia|]. intros (l & o') Q. cbn in *. destruct w; lia. Qed.
Lemma store_safe {A} (m : cells A) off l : safe (store m off l) (fun m' => length m' = length m /\ off + Z.of_nat (length l) <= Z.of_nat (length m)).
Proof.
  unfold store. destruct (Z.leb_spec 0 off); [|exact I]. destruct (Z.leb_spec (off + Z.of_nat (length l)) (Z.of_nat (length m))); [|exact I]. cbn. split; [|lia].
  rewrite !app_length, map_length, firstn_length, skipn_length. lia.
Qed.

Section Shells.
Context (b : dbuf) (pos N : Z) (Nn : 0 <= cval b NEIPS) (P : Z) (PP : 0 <= P).
Let f0 := ioshl (cval b IOSHL0). Let f1 := ioshl (cval b IOSHL1). Let f2 := ioshl (cval b IOSHL2). Let f3 := ioshl (cval b IOSHL3). Let H := cval b NEIPS.
Let c := the_shape b P.
Let D := nums b pos N.
Lemma wpos : 0 <= ip_words b.
Proof. pose proof (ioshl_bit (cval b IOSHL0)) as B0. pose proof (ioshl_bit (cval b IOSHL1)) as B1. unfold ip_words, bit in *. lia. Qed.

(** *** What is always true *)
Lemma surface_at_safe hist i j o : o <= Z.of_nat (length D) -> safe (surface_at c D hist i j o) (fun x => let '(_, hist', o') := x in
  o' = o + ip_words b /\ o' <= Z.of_nat (length D) /\ length hist' = length hist /\ (H = 0 \/ i * P * H + (j + 1) * H <= Z.of_nat (length hist))).
Proof.
  intros O. unfold surface_at, c, the_shape. cbn [stress plastic nhv nip]. fold f0 f1 H. assert (Hn : 0 <= H) by exact Nn.
  assert (G : forall f, bit f -> (if negb (f =? 0) then 1 else 0) = f) by (intros f [-> | ->]; reflexivity).
  pose proof (G f0 (ioshl_bit _)) as G0. pose proof (G f1 (ioshl_bit _)) as G1. assert (Ew : ip_words b = 6 * f0 + f1 + H) by reflexivity.
  eapply safe_bind; [apply take_if_safe; [lia|exact O]|]. intros (sg & o1) (E1 & L1). cbn [snd] in *. rewrite G0 in E1.
  eapply safe_bind; [apply one_if_safe; exact L1|]. intros (ps & o2) (E2 & L2). cbn [snd] in *. rewrite G1 in E2.
  destruct (Z.eqb_spec H 0) as [Hz|Hz]; [cbn [safe]; split; [lia|split; [lia|split; [reflexivity|left; exact Hz]]]|].
  eapply safe_bind; [apply take_safe; lia|]. intros v (L3 & Lv). eapply safe_bind; [apply store_safe|]. intros hist' (L4 & L5). cbn [safe]. split; [lia|split; [lia|split; [exact L4|right; rewrite Z.mul_add_distr_r; lia]]].
Qed.
Lemma set_ip_safe i j sf l adds : safe (set_ip c i j sf l adds) (fun _ => True).
Proof.
  unfold set_ip. destruct (j =? 0); [exact I|]. destruct (j =? 1); [exact I|]. destruct (j =? 2); [exact I|]. eapply safe_bind; [apply store_safe|]. intros; exact I.
Qed.
Lemma ips_loop_safe after i : forall n j l hist adds o, 0 <= j -> o <= Z.of_nat (length D) -> safe (ips_loop c after D i n j l hist adds o) (fun x => let '(_, hist', _, o') := x in
  o' = o + Z.of_nat n * ip_words b + (if (j <=? 2) && (2 <? j + Z.of_nat n) then extra after else 0) /\ o' <= Z.of_nat (length D) /\ length hist' = length hist /\
  (H = 0 \/ (n = 0)%nat \/ i * P * H + (j + Z.of_nat n) * H <= Z.of_nat (length hist))).
Proof.
  induction n as [|n IH]; intros j l hist adds o J O.
  - cbn [ips_loop safe]. assert (E : (j <=? 2) && (2 <? j + Z.of_nat 0) = false) by lia. rewrite E. repeat split; auto; lia.
  - cbn [ips_loop]. eapply safe_bind; [apply surface_at_safe; exact O|]. intros ((sf & hist1) & o1) (E1 & L1 & H1 & M1).
    eapply safe_bind; [apply set_ip_safe|]. intros (l1 & adds1) _.
    eapply safe_bind with (Q := fun x => snd x = o1 + (if j =? 2 then extra after else 0) /\ snd x <= Z.of_nat (length D)).
    { destruct after as [w|]; [|cbn; destruct (j =? 2); lia]. destruct (j =? 2); [|cbn; lia]. eapply safe_bind with (Q := fun x => snd x = o1 + extra (Some w) /\ snd x <= Z.of_nat (length D)); [|intros ((e1 & e2) & o2) Q; exact Q].
      unfold strains_at. eapply safe_bind; [apply (take_if_safe w D o1 12); lia|]. intros (x & o2) Q. cbn [snd safe] in *. destruct w; cbn [extra]; lia. }
    intros (l2 & o2) (E2 & L2). cbn [snd] in *. eapply safe_weaken; [apply IH; [lia|exact L2]|]. intros (((l3 & hist3) & adds3) & o3) (E3 & L3 & H3 & M3).
    split; [|split; [exact L3|split; [congruence|]]].
    + rewrite E3, E2, E1. destruct (Z.eqb_spec j 2), (Z.leb_spec j 2), (Z.leb_spec (j + 1) 2), (Z.ltb_spec 2 (j + 1 + Z.of_nat n)), (Z.ltb_spec 2 (j + Z.of_nat (S n))); cbn [andb]; lia.
    + rewrite H1 in M3. assert (Hn : 0 <= H) by exact Nn. destruct M1 as [M1|M1]; [left; exact M1|]. right. right. destruct M3 as [M3|[M3|M3]]; [lia|subst n; replace (j + Z.of_nat 1) with (j + 1) by lia; exact M1|].
      replace (j + Z.of_nat (S n)) with (j + 1 + Z.of_nat n) by lia. exact M3.
Qed.

(** *** Shells *)
Definition shell_ok (done : list Z) (adone : list surface) (is p : Z) (s : shell) : Prop :=
  (forall k, (k < Z.to_nat P)%nat -> shown b done adone (sh_layers s) k (surface_spec b (p + Z.of_nat k * ip_words b))) /\
  (P <= 3 -> l_add (sh_layers s) = None) /\ sh_nhv s = H /\ sh_nadd s = u8 (P - 3) /\
  let q := p + P * ip_words b in let r := q + 8 * f2 in let t := r + 4 * f3 in
  l_strains (sh_layers s) = (if (is =? 0) || (is =? 1) then Some (group b (stored1 is) t 6, group b (stored1 is) (t + 6) 6) else None) /\
  sh_bending s = group b f2 q 3 /\ sh_shear s = group b f2 (q + 3) 2 /\ sh_normal s = group b f2 (q + 5) 3 /\
  sh_thickness s = single b f3 r /\ sh_vars s = group b f3 (r + 1) 2 /\ sh_energy s = single b f3 (r + 3).
Lemma shell_ok_more done more adone amore is p s : shell_ok done adone is p s -> shell_ok (done ++ more) (adone ++ amore) is p s.
Proof. intros (S1 & S2). split; [|exact S2]. intros k K. apply shown_more. apply S1. exact K. Qed.
Let W (is : Z) := P * ip_words b + 8 * f2 + 4 * f3 + 12 * stored1 is.
Lemma wis is : 0 <= 8 * f2 /\ 0 <= 4 * f3 /\ 0 <= 12 * stored1 is /\ bit f2 /\ bit f3 /\ bit (stored1 is) /\ 0 <= P * ip_words b /\ 0 <= W is.
Proof.
  pose proof (ioshl_bit (cval b IOSHL2)) as B2. pose proof (ioshl_bit (cval b IOSHL3)) as B3. fold f2 in B2. fold f3 in B3. assert (Bs : bit (stored1 is)) by (unfold stored1, bit; destruct (is =? 1); auto).
  pose proof wpos. assert (0 <= P * ip_words b) by (apply Z.mul_nonneg_nonneg; lia). unfold W. unfold bit in *. repeat split; auto; lia.
Qed.
Lemma shell_loop_ok is : forall n i done adone r ra, 0 <= i -> (i + Z.of_nat n) * W is <= N ->
  Z.of_nat (length done) = i * P * H -> Z.of_nat n * P * H <= Z.of_nat r ->
  (3 <= P -> Z.of_nat (length adone) = i * (P - 3)) -> (3 <= P -> Z.of_nat n * (P - 3) <= Z.of_nat ra) ->
  exists l dnew anew r' ra', shell_loop c (negb (f2 =? 0)) (negb (f3 =? 0)) is D n i (filled done r) (filled adone ra) (i * W is) = OK (l, filled (done ++ dnew) r', filled (adone ++ anew) ra', (i + Z.of_nat n) * W is) /\
    length l = n /\ forall k s, nth_error l k = Some s -> shell_ok (done ++ dnew) (adone ++ anew) is (pos + (i + Z.of_nat k) * W is) s.
Proof.
  destruct (wis is) as (W2 & W3 & Ws & B2 & B3 & Bs & Wp & Wn). assert (Hn : 0 <= H) by exact Nn.
  induction n as [|n IH]; intros i done adone r ra I L Ld Lr La Lra.
  - exists [], [], [], r, ra. rewrite !app_nil_r, Z.add_0_r. split; [reflexivity|]. split; [reflexivity|]. intros [|k] s E; discriminate E.
  - assert (L1 : (i + 1) * W is <= N) by (apply Z.le_trans with (2 := L); apply Z.mul_le_mono_nonneg_r; lia). assert (I0 : 0 <= i * W is) by (apply Z.mul_nonneg_nonneg; lia).
    assert (Off : ip_off b None P = P * ip_words b) by (unfold ip_off; destruct (P <? 3); cbn [extra]; lia).
    assert (Mul : Z.of_nat (S n) * P * H = P * H + Z.of_nat n * P * H) by lia. assert (Ph : 0 <= P * H) by (apply Z.mul_nonneg_nonneg; lia). assert (Ph2 : 0 <= Z.of_nat n * P * H) by (apply Z.mul_nonneg_nonneg; [apply Z.mul_nonneg_nonneg|]; lia).
    destruct (ips_loop_ok b pos N Nn P PP None i (i * W is) I I0) with (n := Z.to_nat P) (j := 0) (l := no_layers) (done := done) (adone := adone) (r := r) (ra := ra) as (l1 & dn & an & Q & Ldn & Lan & Sk & Ad & Sh).
    + rewrite Off. unfold W in *. lia.
    + lia.
    + lia.
    + lia.
    + rewrite Z2Nat.id by lia. lia.
    + intros P3. rewrite La by exact P3. lia.
    + intros P3. specialize (Lra P3). assert (0 <= Z.of_nat n * (P - 3)) by (apply Z.mul_nonneg_nonneg; lia). lia.
    + reflexivity.
    + reflexivity.
    + intros k K. lia.
    + assert (E0 : i * W is + ip_off b None 0 = i * W is) by (unfold ip_off; cbn; lia). rewrite E0 in Q. rewrite Off in Q. cbn [shell_loop]. replace (Z.to_nat (nip c)) with (Z.to_nat P) by reflexivity. fold D in Q. fold c in Q. rewrite Q. cbn [bind].
      unfold D at 1 2 3. rewrite (take_if_nums b pos N f2) by (auto; unfold W in *; lia). cbn [bind]. rewrite (take_if_nums b pos N f3) by (auto; unfold W in *; lia). cbn [bind]. fold D.
      set (q := i * W is + P * ip_words b) in *.
      assert (Es : exists l2, (if is =? 0 then OK (with_strains l1 (repeat 0 6, repeat 0 6), q + 8 * f2 + 4 * f3)
          else if is =? 1 then do ' (e1, e2, o) <- strains_at true D (q + 8 * f2 + 4 * f3); OK (with_strains l1 (e1, e2), o) else OK (l1, q + 8 * f2 + 4 * f3)) =
          OK (l2, (i + 1) * W is) /\ l_mid l2 = l_mid l1 /\ l_inner l2 = l_inner l1 /\ l_outer l2 = l_outer l1 /\ l_add l2 = l_add l1 /\
          l_strains l2 = (if (is =? 0) || (is =? 1) then Some (group b (stored1 is) (pos + q + 8 * f2 + 4 * f3) 6, group b (stored1 is) (pos + q + 8 * f2 + 4 * f3 + 6) 6) else None)).
      { assert (Eq : q + 8 * f2 + 4 * f3 + 12 * stored1 is = (i + 1) * W is) by (unfold q, W; ring). unfold stored1 in *. destruct (Z.eqb_spec is 0) as [->|N0]; [|destruct (Z.eqb_spec is 1) as [->|N1]].
        - change (0 =? 1) with false in *. cbn match in *. eexists. split; [do 2 f_equal; lia|]. repeat split.
        - cbn match in *. unfold D. rewrite (strains_at_ok b pos N true) by lia. cbn [bind]. eexists. split; [do 2 f_equal; lia|]. repeat split. cbn [with_strains l_strains orb]. rewrite !Z.add_assoc. reflexivity.
        - eexists. split; [do 2 f_equal; lia|]. repeat split. exact Sk. }
      destruct Es as (l2 & Es & M1 & M2 & M3 & M4 & M5). rewrite Es. cbn [bind].
      destruct (IH (i + 1) (done ++ dn) (adone ++ an) (r - Z.to_nat P * Z.to_nat H)%nat (ra - Z.to_nat (Z.max 0 (P - Z.max 3 0)))%nat) as (l & dn' & an' & r' & ra' & Q' & Ll & Hl).
      * lia.
      * rewrite Nat2Z.inj_succ in L. replace (i + 1 + Z.of_nat n) with (i + Z.succ (Z.of_nat n)) by lia. exact L.
      * rewrite app_length, Nat2Z.inj_add, Ld, Ldn, Z2Nat.id by lia. lia.
      * rewrite <- Z2Nat.inj_mul by lia. lia.
      * intros P3. rewrite app_length, Nat2Z.inj_add, La, Lan by exact P3. lia.
      * intros P3. specialize (Lra P3). lia.
      * fold H; rewrite Q'. cbn [bind]. rewrite <- !app_assoc in *. eexists _, (dn ++ dn'), (an ++ an'), r', ra'. split; [|split].
        -- do 2 f_equal. lia.
        -- cbn [length]. rewrite Ll. reflexivity.
        -- intros [|k] s E.
           ++ cbn [nth_error] in E. apply some_inj in E. subst s. rewrite !app_assoc. apply shell_ok_more. rewrite Z.add_0_r. split; [|split; [|split; [|split]]]; cbn [sh_layers sh_nhv sh_nadd sh_bending sh_shear sh_normal sh_thickness sh_vars sh_energy].
              ** intros k K. specialize (Sh k K). assert (Eo : ip_off b None (Z.of_nat k) = Z.of_nat k * ip_words b) by (unfold ip_off; destruct (_ <? 3); cbn [extra]; lia). rewrite Eo in Sh.
                 intros rest arest. specialize (Sh rest arest). rewrite <- Sh. destruct k as [|[|[|k]]]; cbn [pointed]; rewrite ?M1, ?M2, ?M3, ?M4; reflexivity.
              ** intros P3. rewrite M4. unfold add_ok in Ad. rewrite Ad. destruct (Z.ltb_spec P 4); [reflexivity|lia].
              ** reflexivity.
              ** reflexivity.
              ** replace (pos + i * W is + P * ip_words b) with (pos + q) by (unfold q; ring). split; [exact M5|].
                 split; [apply (group_first b f2 (pos + q) 8 3); lia|]. split; [apply (group_sub b f2 (pos + q) 8 3 2); lia|]. split; [apply (group_skip b f2 (pos + q) 8 5); lia|].
                 replace (pos + (q + 8 * f2)) with (pos + q + 8 * f2) by ring. split; [apply group_hd; lia|]. split; [apply (group_sub b f3 _ 4 1 2); lia|]. pose proof (group_skip b f3 (pos + q + 8 * f2) 4 3 ltac:(lia)) as G3. change (Z.to_nat 3) with 3%nat in G3. rewrite G3. apply group_hd. lia.
           ++ cbn [nth_error] in E. specialize (Hl k s E). replace (i + Z.of_nat (S k)) with (i + 1 + Z.of_nat k) by lia. exact Hl.
Qed.
Lemma shell_seen done adone rest arest is p s : 3 <= P < 256 -> is = 0 \/ is = 1 -> P = ips_of b -> shell_ok done adone is p s -> see_shell (map Some done ++ rest) (map Some adone ++ arest) s = Some (shell_spec b is p).
Proof.
  intros P3 Is Ep (S1 & _ & S3 & S4 & S5 & S6 & S7 & S8 & S9 & S10 & S11). unfold see_shell. rewrite S3, S4.
  assert (Eu : u8 (P - 3) = P - 3) by (unfold u8; apply Z.mod_small; lia). rewrite Eu.
  assert (G : see_layers (map Some done ++ rest) (map Some adone ++ arest) H (P - 3) (sh_layers s) = Some (each (ips_of b) (fun j => surface_spec b (p + j * ip_words b)))).
  { unfold see_layers. apply all_map; [rewrite each_length, seq_length; lia|]. intros k x v Hx Hv. apply each_nth_inv in Hv as (K & ->). rewrite <- Ep in K.
    assert (Ex : x = k) by (rewrite (nth_error_nth' _ O) in Hx by (rewrite seq_length; lia); rewrite seq_nth in Hx by lia; injection Hx as <-; reflexivity). subst x. apply (S1 k K). }
  rewrite G, S5. assert (Ei : (is =? 0) || (is =? 1) = true) by (destruct Is as [-> | ->]; reflexivity). rewrite Ei. cbn match. unfold shell_spec. cbv zeta. fold f2 f3. rewrite <- Ep.
  rewrite S6, S7, S8, S9, S10, S11. reflexivity.
Qed.
Lemma shell_loop_safe is : forall n i hist adds o, o <= Z.of_nat (length D) -> safe (shell_loop c (negb (f2 =? 0)) (negb (f3 =? 0)) is D n i hist adds o) (fun x => let '(_, _, _, o') := x in o' = o + Z.of_nat n * W is /\ o' <= Z.of_nat (length D)).
Proof.
  destruct (wis is) as (W2 & W3 & Ws & B2 & B3 & Bs & Wp & Wn). assert (G : forall f, bit f -> (if negb (f =? 0) then 1 else 0) = f) by (intros f [-> | ->]; reflexivity).
  pose proof (G f2 B2) as G2. pose proof (G f3 B3) as G3. induction n as [|n IH]; intros i hist adds o O; [cbn; lia|]. cbn [shell_loop].
  eapply safe_bind; [apply ips_loop_safe; [lia|exact O]|]. intros (((l1 & hist1) & adds1) & o1) (E1 & L1 & _). replace (Z.to_nat (nip c)) with (Z.to_nat P) in E1 by reflexivity. rewrite Z2Nat.id in E1 by lia.
  assert (E1' : o1 = o + P * ip_words b) by (rewrite E1; destruct (_ && _); cbn [extra]; lia).
  eapply safe_bind; [apply take_if_safe; [lia|exact L1]|]. intros (f & o2) (E2 & L2). cbn [snd] in *. rewrite G2 in E2.
  eapply safe_bind; [apply take_if_safe; [lia|exact L2]|]. intros (t & o3) (E3 & L3). cbn [snd] in *. rewrite G3 in E3.
  eapply safe_bind with (Q := fun x => snd x = o3 + 12 * stored1 is /\ snd x <= Z.of_nat (length D)).
  { unfold stored1. destruct (Z.eqb_spec is 0) as [->|N0]; [cbn; lia|]. destruct (is =? 1); [|cbn; lia]. unfold strains_at.
    eapply safe_bind with (Q := fun x => snd x = o3 + 12 * 1 /\ snd x <= Z.of_nat (length D)); [|intros ((e1 & e2) & o4) Q; exact Q].
    eapply safe_bind; [apply (take_if_safe true D o3 12); lia|]. intros (x & o4) Q. cbn [snd safe] in *. lia. }
  intros (l2 & o4) (E4 & L4). cbn [snd] in *. eapply safe_bind; [apply IH; exact L4|]. intros (((r & hist5) & adds5) & o5) (E5 & L5). cbn [safe]. split; [|exact L5]. rewrite E5, E4, E3, E2, E1'. unfold W. lia.
Qed.

(** *** Thick shells *)
Let T (w : bool) := P * ip_words b + (if P <? 3 then 0 else extra (Some w)).
Definition thick_ok (done : list Z) (adone : list surface) (w : bool) (p : Z) (s : thick_shell) : Prop :=
  (forall k, (k < Z.to_nat P)%nat -> shown b done adone (ts_layers s) k (surface_spec b (p + ip_off b (Some w) (Z.of_nat k)))) /\
  ts_nhv s = H /\ ts_nadd s = u8 (P - 3) /\ (P <= 3 -> l_add (ts_layers s) = None) /\
  (3 <= P -> l_strains (ts_layers s) = Some (group b (if w then 1 else 0) (p + 3 * ip_words b) 6, group b (if w then 1 else 0) (p + 3 * ip_words b + 6) 6)).
Lemma thick_loop_ok w : forall n i done adone r ra, 0 <= i -> (i + Z.of_nat n) * T w <= N ->
  Z.of_nat (length done) = i * P * H -> Z.of_nat n * P * H <= Z.of_nat r ->
  (3 <= P -> Z.of_nat (length adone) = i * (P - 3)) -> (3 <= P -> Z.of_nat n * (P - 3) <= Z.of_nat ra) ->
  exists l dnew anew r' ra', thick_loop c w D n i (filled done r) (filled adone ra) (i * T w) = OK (l, filled (done ++ dnew) r', filled (adone ++ anew) ra', (i + Z.of_nat n) * T w) /\
    length l = n /\ forall k s, nth_error l k = Some s -> thick_ok (done ++ dnew) (adone ++ anew) w (pos + (i + Z.of_nat k) * T w) s.
Proof.
  pose proof wpos as Wp. assert (Wp' : 0 <= P * ip_words b) by (apply Z.mul_nonneg_nonneg; lia). assert (Tn : 0 <= T w) by (unfold T; destruct (P <? 3), w; cbn [extra]; lia). assert (Hn : 0 <= H) by exact Nn.
  assert (Off : ip_off b (Some w) P = T w) by reflexivity.
  induction n as [|n IH]; intros i done adone r ra I L Ld Lr La Lra.
  - exists [], [], [], r, ra. rewrite !app_nil_r, Z.add_0_r. split; [reflexivity|]. split; [reflexivity|]. intros [|k] s E; discriminate E.
  - assert (L1 : (i + 1) * T w <= N) by (apply Z.le_trans with (2 := L); apply Z.mul_le_mono_nonneg_r; lia). assert (I0 : 0 <= i * T w) by (apply Z.mul_nonneg_nonneg; lia).
    assert (Mul : Z.of_nat (S n) * P * H = P * H + Z.of_nat n * P * H) by lia. assert (Ph : 0 <= P * H) by (apply Z.mul_nonneg_nonneg; lia). assert (Ph2 : 0 <= Z.of_nat n * P * H) by (apply Z.mul_nonneg_nonneg; [apply Z.mul_nonneg_nonneg|]; lia).
    destruct (ips_loop_ok b pos N Nn P PP (Some w) i (i * T w) I I0) with (n := Z.to_nat P) (j := 0) (l := no_layers) (done := done) (adone := adone) (r := r) (ra := ra) as (l1 & dn & an & Q & Ldn & Lan & Sk & Ad & Sh).
    + rewrite Off. lia.
    + lia.
    + lia.
    + lia.
    + rewrite Z2Nat.id by lia. lia.
    + intros P3. rewrite La by exact P3. lia.
    + intros P3. specialize (Lra P3). assert (0 <= Z.of_nat n * (P - 3)) by (apply Z.mul_nonneg_nonneg; lia). lia.
    + reflexivity.
    + left. lia.
    + intros k K. lia.
    + assert (E0 : i * T w + ip_off b (Some w) 0 = i * T w) by (unfold ip_off; cbn; lia). rewrite E0 in Q. rewrite Off in Q. cbn [thick_loop]. replace (Z.to_nat (nip c)) with (Z.to_nat P) by reflexivity. fold D in Q. fold c in Q. rewrite Q. cbn [bind].
      replace (i * T w + T w) with ((i + 1) * T w) by ring.
      destruct (IH (i + 1) (done ++ dn) (adone ++ an) (r - Z.to_nat P * Z.to_nat H)%nat (ra - Z.to_nat (Z.max 0 (P - Z.max 3 0)))%nat) as (l & dn' & an' & r' & ra' & Q' & Ll & Hl).
      * lia.
      * rewrite Nat2Z.inj_succ in L. replace (i + 1 + Z.of_nat n) with (i + Z.succ (Z.of_nat n)) by lia. exact L.
      * rewrite app_length, Nat2Z.inj_add, Ld, Ldn, Z2Nat.id by lia. lia.
      * rewrite <- Z2Nat.inj_mul by lia. lia.
      * intros P3. rewrite app_length, Nat2Z.inj_add, La, Lan by exact P3. lia.
      * intros P3. specialize (Lra P3). lia.
      * fold H; rewrite Q'. cbn [bind]. rewrite <- !app_assoc in *. eexists _, (dn ++ dn'), (an ++ an'), r', ra'. split; [|split].
        -- do 2 f_equal. lia.
        -- cbn [length]. rewrite Ll. reflexivity.
        -- intros [|k] s E.
           ++ cbn [nth_error] in E. apply some_inj in E. subst s. rewrite Z.add_0_r. split; [|split; [|split; [|split]]]; cbn [ts_layers ts_nhv ts_nadd].
              ** intros k K. rewrite !app_assoc. apply shown_more. apply Sh. exact K.
              ** reflexivity.
              ** reflexivity.
              ** intros P3. unfold add_ok in Ad. rewrite Ad. destruct (Z.ltb_spec P 4); [reflexivity|lia].
              ** intros P3. destruct Sk as [Sk|Sk]; [lia|exact Sk].
           ++ cbn [nth_error] in E. specialize (Hl k s E). replace (i + Z.of_nat (S k)) with (i + 1 + Z.of_nat k) by lia. exact Hl.
Qed.
Lemma thick_seen done adone rest arest is p s : 3 <= P < 256 -> P = ips_of b -> thick_ok done adone (is =? 1) p s -> see_thick (map Some done ++ rest) (map Some adone ++ arest) s = Some (thick_spec b is p).
Proof.
  intros P3 Ep (S1 & S3 & S4 & _ & S5). unfold see_thick. rewrite S3, S4. assert (Eu : u8 (P - 3) = P - 3) by (unfold u8; apply Z.mod_small; lia). rewrite Eu.
  assert (Est : (if is =? 1 then 1 else 0) = stored1 is) by reflexivity.
  assert (G : see_layers (map Some done ++ rest) (map Some adone ++ arest) H (P - 3) (ts_layers s) = Some (x_ips (thick_spec b is p))).
  { unfold see_layers. cbn [thick_spec x_ips]. apply all_map; [rewrite each_length, seq_length; lia|]. intros k x v Hx Hv. apply each_nth_inv in Hv as (K & ->). rewrite <- Ep in K.
    assert (Ex : x = k) by (rewrite (nth_error_nth' _ O) in Hx by (rewrite seq_length; lia); rewrite seq_nth in Hx by lia; injection Hx as <-; reflexivity). subst x. pose proof (S1 k K rest arest) as S. transitivity (Some (surface_spec b (p + ip_off b (Some (is =? 1)) (Z.of_nat k)))); [exact S|]. do 2 f_equal.
    unfold ip_off. destruct (Z.of_nat k <? 3); [lia|]. unfold stored1. destruct (is =? 1); cbn [extra]; lia. }
  rewrite G, (S5 ltac:(lia)), Est. reflexivity.
Qed.
Lemma thick_loop_safe w : forall n i hist adds o, o <= Z.of_nat (length D) -> safe (thick_loop c w D n i hist adds o) (fun x => let '(_, hist', _, o') := x in
  o' = o + Z.of_nat n * T w /\ o' <= Z.of_nat (length D) /\ length hist' = length hist /\ (H = 0 \/ P = 0 \/ n = 0%nat \/ (i + Z.of_nat n) * P * H <= Z.of_nat (length hist))).
Proof.
  induction n as [|n IH]; intros i hist adds o O; [cbn; repeat split; try lia; auto|]. cbn [thick_loop].
  eapply safe_bind; [apply ips_loop_safe; [lia|exact O]|]. intros (((l1 & hist1) & adds1) & o1) (E1 & L1 & H1 & M1). replace (Z.to_nat (nip c)) with (Z.to_nat P) in E1, M1 by reflexivity. rewrite Z2Nat.id in E1, M1 by lia.
  assert (E1' : o1 = o + T w) by (rewrite E1; unfold T; destruct (Z.ltb_spec P 3), (Z.ltb_spec 2 (0 + P)); cbn [Z.leb Z.compare andb]; lia).
  eapply safe_bind; [apply IH; exact L1|]. intros (((r & hist5) & adds5) & o5) (E5 & L5 & H5 & M5). cbn [safe]. split; [lia|]. split; [exact L5|]. split; [congruence|].
  destruct M1 as [M1|[M1|M1]]; [left; exact M1|right; left; lia|]. destruct M5 as [M5|[M5|[M5|M5]]]; [left; exact M5|right; left; exact M5|right; right; right; subst n; replace (Z.of_nat 1) with 1 by reflexivity; lia|].
  right. right. right. replace (i + Z.of_nat (S n)) with (i + 1 + Z.of_nat n) by lia. rewrite <- H1. exact M5.
Qed.
End Shells.
