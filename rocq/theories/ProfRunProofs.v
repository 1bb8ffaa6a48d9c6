(** * Proofs about the profiler: a run *)
From Verif Require Import CBase CBaseFacts SearchModel SearchSpec SearchProofs CppArrayModel CppArraySpec CppArrayProofs ProfModel ProfSpec ProfProofs.
Open Scope nat_scope.

Lemma replace_map_mid (A : list pnode) n B n' : replace (map Some (A ++ n :: B)) (length A) (Some n') = map Some (A ++ n' :: B).
Proof. rewrite !map_app. cbn [map]. replace (length A) with (length (map (@Some pnode) A)) by apply map_length. apply replace_mid. Qed.
Lemma nth_map_mid (A : list pnode) n B : nth_error (map Some (A ++ n :: B)) (length A) = Some (Some n).
Proof. rewrite !map_app. cbn [map]. replace (length A) with (length (map (@Some pnode) A)) by apply map_length. apply nth_mid. Qed.

Lemma NoDup_app_l {A} (a b : list A) : NoDup (a ++ b) -> NoDup a.
Proof. induction a as [|x a IH]; intros N; [constructor|]. inversion N; subst. constructor; [intros I; apply H1; apply in_or_app; auto|auto]. Qed.
Lemma NoDup_app_r {A} (a b : list A) : NoDup (a ++ b) -> NoDup b.
Proof. induction a as [|x a IH]; intros N; [exact N|]. inversion N; subst. auto. Qed.
Lemma NoDup_app_disj {A} (a b : list A) x : NoDup (a ++ b) -> In x a -> In x b -> False.
Proof. induction a as [|y a IH]; intros N I J; [destruct I|]. inversion N; subst. destruct I as [<- |I]; [apply H1; apply in_or_app; auto|auto]. Qed.
Lemma NoDup_app_intro {A} (a b : list A) : NoDup a -> NoDup b -> (forall x, In x a -> In x b -> False) -> NoDup (a ++ b).
Proof. induction a as [|y a IH]; intros N M D; [exact M|]. inversion N; subst. cbn [app]. constructor; [intros I; apply in_app_or in I as [I|I]; [contradiction|apply (D y); [left; reflexivity|exact I]]|apply IH; auto; intros x I; apply D; right; exact I]. Qed.

Lemma add_parent_ok x1 par pr b m h4 d : holds x1 par pr b m -> (forall c, x_cur x1 = Some c -> nth_error h4 (fst c) = nth_error (x_heap x1) (fst c)) ->
  exists h5, match x_cur x1 with Some q => add_prof h4 q d | None => OK h4 end = OK h5 /\ length h5 = length h4 /\
    (forall b', (forall c, x_cur x1 = Some c -> fst c <> b') -> nth_error h5 b' = nth_error h4 b') /\
    (forall c, x_cur x1 = Some c -> exists a n, nth_error (x_heap x1) (fst c) = Some (Some a) /\ nth_error a (snd c) = Some (Some n) /\ par = Some (p_name n) /\ p_prof n = pr /\ p_subs n = Some b /\ p_num n = m /\
       nth_error h5 (fst c) = Some (Some (replace a (snd c) (Some (upd n (p_exec n) (p_prof n + d) (p_subs n) (p_num n) (p_parent n)))))).
Proof.
  intros H E. unfold holds in H. destruct (x_cur x1) as [[cb ci]|] eqn:Q.
  - destruct H as (n & (a & Ha & Hn) & Ep & Epr & Es & Em). cbn [fst snd] in *. specialize (E _ eq_refl). cbn [fst] in E. rewrite Ha in E.
    unfold add_prof. rewrite (node_ok _ _ _ _ _ E Hn). cbn [bind]. rewrite (put_node_ok _ _ _ _ _ _ E Hn). eexists. split; [reflexivity|]. split; [apply replace_length|]. split.
    + intros b' NC. apply nth_replace_neq. apply (NC _ eq_refl).
    + intros c [= <-]. cbn [fst snd]. exists a, n. repeat (split; [assumption|]). rewrite nth_replace_eq by (eapply nth_len; eauto). reflexivity.
  - exists h4. repeat split; auto. discriminate.
Qed.

Definition good (cs : list call) : Prop := forall x par pr f fp, site x par pr f fp -> wf f ->
  exists x' f' fp', run_calls x cs = OK x' /\ site x' par (pr + zsum (map overhead cs)) f' fp' /\ wf f' /\ moved x x' (zsum (map overhead cs)) fp fp' /\
    forall q, val f' q = oplus (val f q) (times q (flat_map (measured par) cs)).

Lemma times_app q a b : times q (a ++ b) = times q a ++ times q b.
Proof. unfold times. rewrite filter_app, map_app. reflexivity. Qed.
Lemma good_nil : good [].
Proof.
  intros x par pr f fp HS W. exists x, f, fp. split; [reflexivity|]. cbn [map zsum fold_right]. rewrite Z.add_0_r. split; [exact HS|]. split; [exact W|]. split; [apply (moved_refl _ _ _ _ _ HS)|]. intros q. reflexivity.
Qed.
Lemma good_cons c cs : good [c] -> good cs -> good (c :: cs).
Proof.
  intros G1 G2 x par pr f fp HS W. destruct (G1 _ _ _ _ _ HS W) as (x1 & f1 & fp1 & E1 & S1 & W1 & M1 & V1). cbn [run_calls] in E1. destruct (run_call x c) as [y| |] eqn:Ec; try discriminate. cbn [bind] in E1. injection E1 as ->.
  destruct (G2 _ _ _ _ _ S1 W1) as (x2 & f2 & fp2 & E2 & S2 & W2 & M2 & V2). exists x2, f2, fp2. cbn [run_calls]. rewrite Ec. cbn [bind]. split; [exact E2|].
  cbn [map] in *. unfold zsum in *. cbn [fold_right] in *. rewrite Z.add_0_r in *. split; [rewrite Z.add_assoc; exact S2|]. split; [exact W2|]. split; [apply (moved_trans _ _ _ _ _ _ _ _ M1 M2)|].
  intros q. rewrite V2, V1, oplus_app. cbn [flat_map]. rewrite app_nil_r, times_app. reflexivity.
Qed.

(** ** What is measured below a section *)
Lemma measured_nonempty : forall c a r, In r (measured a c) -> fst r <> [].
Proof.
  fix IH 1. intros [name t0 t1 inside e1 e2] a r. cbn [measured].
  assert (K : forall a, forall r, In r (flat_map (measured a) inside) -> fst r <> []).
  { clear r a. intros a. induction inside as [|c l IHl]; intros r I; [destruct I|]. cbn [flat_map] in I. apply in_app_or in I as [I|I]; [apply (IH c a r I)|apply (IHl r I)]. }
  destruct (same_name a name); [apply K|]. intros [<- |I]; [discriminate|]. apply in_map_iff in I as (r' & <- & _). discriminate.
Qed.
Lemma flat_measured_nonempty cs a r : In r (flat_map (measured a) cs) -> fst r <> [].
Proof. intros I. apply in_flat_map in I as (c & _ & I). eapply measured_nonempty; eauto. Qed.
Lemma times_nil l : (forall r, In r l -> fst r <> []) -> times [] l = [].
Proof.
  unfold times. induction l as [|r l IH]; intros H; [reflexivity|]. cbn [filter]. destruct (list_eq_dec (list_eq_dec Z.eq_dec) (fst r) []) as [E|_]; [exfalso; apply (H r); [left; reflexivity|exact E]|]. apply IH. intros r' I. apply H. right. exact I.
Qed.
Lemma times_under n m q l : times (m :: q) (map (fun r => (n :: fst r, snd r)) l) = if list_eq_dec Z.eq_dec n m then times q l else [].
Proof.
  unfold times. induction l as [|r l IH]; [destruct (list_eq_dec Z.eq_dec n m); reflexivity|]. cbn [map filter fst snd].
  destruct (list_eq_dec (list_eq_dec Z.eq_dec) (n :: fst r) (m :: q)) as [E|N].
  - injection E as -> E. destruct (list_eq_dec Z.eq_dec m m); [|congruence]. destruct (list_eq_dec (list_eq_dec Z.eq_dec) (fst r) q); [|congruence]. cbn [map snd]. f_equal. exact IH.
  - rewrite IH. destruct (list_eq_dec Z.eq_dec n m) as [-> |]; [|reflexivity]. destruct (list_eq_dec (list_eq_dec Z.eq_dec) (fst r) q); [congruence|]. reflexivity.
Qed.

Lemma section_val fA name t s fB f t1 own s' l :
  ~ In name (map e_name fA) -> (f = fA ++ Entry name t s :: fB \/ (f = fA ++ fB /\ ~ In name (map e_name f) /\ t = 0%Z /\ s = [])) ->
  t1 = (t + own)%Z -> (forall r, In r l -> fst r <> []) -> (forall q, val s' q = oplus (val s q) (times q l)) ->
  forall q, val (fA ++ Entry name t1 s' :: fB) q = oplus (val f q) (times q (([name], own) :: map (fun r => (name :: fst r, snd r)) l)).
Proof.
  intros NI Hf -> NE V q. destruct q as [|m q].
  - rewrite times_nil; [reflexivity|]. intros r [<- |I]; [discriminate|]. apply in_map_iff in I as (r' & <- & _). discriminate.
  - assert (Ef1 : name = m -> find name f = Some (t, s) \/ (find name f = None /\ t = 0%Z /\ s = [])).
    { intros _. destruct Hf as [-> |(-> & Nn & T & Se)]; [left; rewrite find_mid by exact NI; destruct (list_eq_dec Z.eq_dec name name); congruence|right]. split; [|auto]. clear - Nn. induction (fA ++ fB) as [|[k u v] f IH]; [reflexivity|]. cbn [find]. cbn [map In e_name] in Nn. destruct (list_eq_dec Z.eq_dec k name); [tauto|]. apply IH. tauto. }
    assert (Ef2 : name <> m -> find m f = find m (fA ++ fB)).
    { intros N. destruct Hf as [-> |(-> & _)]; [|reflexivity]. rewrite find_mid by exact NI. destruct (list_eq_dec Z.eq_dec name m); congruence. }
    change (([name], own) :: map (fun r => (name :: fst r, snd r)) l) with ([([name], own)] ++ map (fun r => (name :: fst r, snd r)) l). rewrite times_app, times_under.
    cbn [val]. rewrite find_mid by exact NI. destruct (list_eq_dec Z.eq_dec name m) as [<- |N].
    + specialize (Ef1 eq_refl). rename Ef1 into Efn.
      destruct q as [|m q].
      * rewrite (times_nil l NE), app_nil_r. unfold times. cbn [filter fst]. destruct (list_eq_dec (list_eq_dec Z.eq_dec) [name] [name]); [|congruence]. cbn [map snd oplus zsum fold_right]. destruct Efn as [-> |(-> & -> & _)]; f_equal; lia.
      * unfold times at 1. cbn [filter fst]. destruct (list_eq_dec (list_eq_dec Z.eq_dec) [name] (name :: m :: q)); [discriminate|]. cbn [map app]. rewrite V. destruct Efn as [-> |(-> & _ & ->)]; reflexivity.
    + unfold times. cbn [filter fst]. destruct (list_eq_dec (list_eq_dec Z.eq_dec) [name] (m :: q)); [congruence|]. cbn [map app oplus].
      rewrite (Ef2 N). reflexivity.
Qed.
Lemma good_call name t0 t1 inside e1 e2 : good inside -> good [Call name t0 t1 inside e1 e2].
Proof.
  intros G x par pr f fp HS W. unfold run_calls at 1. cbn [run_call]. fold run_calls. unfold begin_section.
  set (ov := overhead (Call name t0 t1 inside e1 e2)). cbn [map flat_map]. fold ov.
  assert (Ezs : zsum [ov] = ov) by (unfold zsum; cbn [fold_right]; lia). rewrite Ezs. clear Ezs. rewrite app_nil_r.
  assert (Ov : ov = ((e2 - t0) - (e1 - t1) + zsum (map overhead inside))%Z) by reflexivity. clearbody ov. set (d := zsum (map overhead inside)) in *.
  assert (Esame : match x_cur x with Some c => do n <- node (x_heap x) c; OK (strcmp name (p_name n) =? 0)%Z | None => OK false end = OK (same_name par name)).
  { destruct HS as (_ & HS). destruct (x_cur x) as [[cb ci]|].
    - destruct HS as (n & (a & Ha & Hn) & -> & _). cbn [fst snd] in *. rewrite (node_ok _ _ _ _ _ Ha Hn). cbn [bind same_name]. f_equal. destruct (list_eq_dec Z.eq_dec (p_name n) name) as [-> |N]; [rewrite strcmp_refl; reflexivity|]. destruct (Z.eqb_spec (strcmp name (p_name n)) 0) as [E|]; [|reflexivity]. apply strcmp_eq in E. congruence.
    - destruct HS as (-> & _). reflexivity. }
  rewrite Esame. cbn [bind measured]. destruct (same_name par name) eqn:Esn; cbn [bind].
  - (* the section with the same name goes on *)
    destruct (G _ _ _ _ _ HS W) as (x1 & f1 & fp1 & E1 & S1 & W1 & M1 & V1). rewrite E1. cbn [bind]. unfold end_section. cbn [k_should_end k_stack k_start k_prof_start].
    destruct par as [pn|]; [|discriminate]. destruct (x_cur x) as [[cb ci]|] eqn:Q; [|destruct HS as (_ & HS); rewrite Q in HS; destruct HS; discriminate].
    pose proof (mv_cur _ _ _ _ _ M1) as Q1. rewrite Q in Q1. pose proof S1 as (ND1 & S1'). rewrite Q1 in S1'. destruct S1' as (n & (a & Ha & Hn) & Ep & Epr & R & NIc). cbn [fst snd] in *.
    unfold add_prof. rewrite (node_ok _ _ _ _ _ Ha Hn). cbn [bind]. rewrite (put_node_ok _ _ _ _ _ _ Ha Hn). cbn [bind].
    set (n2 := {| p_name := p_name n; p_exec := p_exec n; p_prof := _; p_subs := p_subs n; p_num := p_num n; p_parent := p_parent n |}).
    set (h2 := replace (x_heap x1) cb (Some (replace a ci (Some n2)))).
    assert (Hc2 : nth_error h2 cb = Some (Some (replace a ci (Some n2)))) by (apply nth_replace_eq; eapply nth_len; eauto).
    set (x2 := {| x_heap := h2; x_cur := x_cur x1; x_top := x_top x1; x_num := x_num x1 |}).
    assert (R2 : reps h2 (p_subs n2) (p_num n2) f1 fp1). { apply (reps_frame _ _ _ _ _ _ R). intros b I. apply nth_replace_neq. intros ->. contradiction. }
    exists x2, f1, fp1. split; [reflexivity|]. assert (S2 : site x2 (Some pn) (pr + ov) f1 fp1).
    { split; [exact ND1|]. cbn [x_cur x2]. rewrite Q1. exists n2. cbn [x_heap x2]. split; [exists (replace a ci (Some n2)); split; [exact Hc2|apply nth_replace_eq; eapply nth_len; eauto]|]. split; [exact Ep|]. split; [cbn [p_prof n2]; rewrite Epr, Ov; lia|]. split; [exact R2|exact NIc]. }
    split; [exact S2|]. split; [exact W1|]. split; [|exact V1].
    replace ov with (d + (ov - d))%Z by lia. apply (moved_trans _ _ _ _ _ _ _ _ M1). constructor; cbn [x2 x_cur x_heap x_top x_num].
    + reflexivity.
    + unfold h2. rewrite replace_length. lia.
    + intros b Lb _ NQ. apply nth_replace_neq. apply (NQ _ Q1).
    + intros c Qc. rewrite Q1 in Qc. injection Qc as <-. split; [reflexivity|]. split; [reflexivity|]. cbn [fst snd]. exists a, n, (p_subs n), (p_num n). split; [exact Ha|]. split; [exact Hn|]. rewrite Hc2. do 4 f_equal. unfold n2, upd. f_equal. rewrite Ov. lia.
    + auto.
    + intros b (a' & La). destruct (in_dec Nat.eq_dec b fp1) as [I|NI]; [left; exact I|right]. split; [|exact NI]. destruct (Nat.eq_dec cb b) as [<- |Nb]; [exists a; exact Ha|]. exists a'. rewrite <- La. symmetry. apply nth_replace_neq. exact Nb.
  - (* a section of its own *)
    destruct (enter_ok _ _ _ _ _ name HS W) as (x1 & b & NA & n & NB & fA & s & fB & fpA & fps & fpB & E & En & Epr & Hb & RA & RS & RB & Hf & W1 & M1 & Ho & NC & ND).
    rewrite E. cbn [bind]. rewrite (node_ok _ _ _ _ _ Hb (nth_map_mid _ _ _)). cbn [bind]. rewrite (put_node_ok _ _ _ _ _ _ Hb (nth_map_mid _ _ _)). cbn [bind]. rewrite replace_map_mid.
    pose proof (mv_cur _ _ _ _ _ M1) as C1. rewrite C1.
    set (n1 := {| p_name := p_name n; p_exec := p_exec n; p_prof := p_prof n; p_subs := p_subs n; p_num := p_num n; p_parent := x_cur x |}).
    set (h2 := replace (x_heap x1) b (Some (map Some (NA ++ n1 :: NB)))).
    set (x2 := {| x_heap := h2; x_cur := Some (b, length NA); x_top := x_top x1; x_num := x_num x1 |}).
    inversion ND as [|? ? Nb ND1]; subst x0 l.
    assert (Lb : b < length (x_heap x1)) by (eapply nth_len; eauto).
    assert (Hb2 : nth_error h2 b = Some (Some (map Some (NA ++ n1 :: NB)))) by (apply nth_replace_eq; exact Lb).
    assert (NIA : forall c, In c fpA -> c <> b /\ ~ In c fps /\ c < length (x_heap x1) /\ ~ In c fpB).
    { intros c I. split; [intros ->; apply Nb; apply in_or_app; auto|]. split; [|split; [apply plive_lt; apply (nreps_live _ _ _ _ _ RA I)|]]; intros I2; apply (NoDup_app_disj _ _ _ ND1 I); apply in_or_app; auto. }
    assert (NDr : NoDup (fps ++ fpB)) by (eapply NoDup_app_r; eauto).
    assert (NIB : forall c, In c fpB -> c <> b /\ ~ In c fps /\ c < length (x_heap x1)).
    { intros c I. split; [intros ->; apply Nb; apply in_or_app; right; apply in_or_app; auto|]. split; [|apply plive_lt; apply (nreps_live _ _ _ _ _ RB I)]. intros I2. apply (NoDup_app_disj _ _ _ NDr I2 I). }
    assert (S2 : site x2 (Some name) 0 s fps).
    { split; [eapply NoDup_app_l; eauto|]. cbn [x_cur x2]. exists n1. cbn [x_heap x2]. split; [exists (map Some (NA ++ n1 :: NB)); cbn [fst snd]; split; [exact Hb2|apply nth_map_mid]|]. split; [cbn [p_name n1]; rewrite En; reflexivity|]. split; [exact Epr|].
      split; [|intros I; apply Nb; apply in_or_app; right; apply in_or_app; left; exact I]. apply (reps_frame _ _ _ _ _ _ RS). intros c I. apply nth_replace_neq. intros ->. apply Nb. apply in_or_app; right; apply in_or_app; left; exact I. }
    assert (Ws : wf s) by (inversion W1 as [f0 _ We]; subst; apply (We (Entry (p_name n) (p_exec n) s)); apply in_or_app; right; left; reflexivity).
    destruct (G _ _ _ _ _ S2 Ws) as (x3 & s' & fps' & E3 & S3 & Ws' & M3 & V3). rewrite E3. cbn [bind]. clear E3.
    pose proof (mv_cur _ _ _ _ _ M3) as C3. cbn [x_cur x2] in C3. destruct (mv_cell _ _ _ _ _ M3 _ eq_refl) as (T3 & N3 & a3 & n3 & s3 & m3 & Ha3 & Hn3 & Hb3). cbn [fst snd x_heap x2 x_top x_num] in *.
    rewrite Hb2 in Ha3. injection Ha3 as <-. rewrite nth_map_mid in Hn3. injection Hn3 as <-. rewrite replace_map_mid in Hb3. set (n3 := upd n1 _ _ s3 m3 _) in *.
    destruct S3 as (ND3 & S3). rewrite C3 in S3. destruct S3 as (nn & (aa & Haa & Hnn) & Epn & Eprn & R3 & NI3). cbn [fst snd] in *. rewrite Hb3 in Haa. injection Haa as <-. rewrite nth_map_mid in Hnn. injection Hnn as <-.
    unfold end_section. cbn [k_should_end k_stack k_start k_prof_start]. rewrite (node_ok _ _ _ _ _ Hb3 (nth_map_mid _ _ _)). cbn [bind]. rewrite (put_node_ok _ _ _ _ _ _ Hb3 (nth_map_mid _ _ _)). cbn [bind]. rewrite replace_map_mid.
    set (n4 := {| p_name := p_name n3; p_exec := _; p_prof := 0; p_subs := p_subs n3; p_num := p_num n3; p_parent := p_parent n3 |}). set (h4 := replace (x_heap x3) b (Some (map Some (NA ++ n4 :: NB)))).
    assert (L3 := mv_len _ _ _ _ _ M3). cbn [x_heap x2] in L3. unfold h2 in L3. rewrite replace_length in L3.
    assert (Old : forall c, c < length (x_heap x1) -> ~ In c fps -> c <> b -> nth_error h4 c = nth_error (x_heap x1) c).
    { intros c Lc Nc Ncb. unfold h4. rewrite nth_replace_neq by congruence. rewrite (mv_frame _ _ _ _ _ M3); cbn [x_heap x2 x_cur].
      - unfold h2. apply nth_replace_neq. congruence. - unfold h2. rewrite replace_length. exact Lc. - exact Nc. - intros d0 [= <-]. cbn [fst]. congruence. }
    assert (Ppar : p_parent n3 = x_cur x1) by (cbn [p_parent n3 n1 upd]; congruence). rewrite Ppar.
    destruct (add_parent_ok x1 par pr b (length (NA ++ n :: NB)) h4 (e2 - t0 - (e1 - t1 - p_prof n3)) Ho) as (h5 & E5 & L5 & F5 & P5).
    { intros c Qc. assert (Nc := NC c). rewrite C1 in Qc. specialize (Nc Qc). apply Old; [| |intros Ec; apply Nc; left; symmetry; exact Ec].
      - unfold holds in Ho. rewrite C1, Qc in Ho. destruct Ho as (nc & (ac & Hac & _) & _). eapply nth_len; eauto.
      - intros I. apply Nc. right. apply in_or_app; right; apply in_or_app; left; exact I. }
    lazymatch goal with |- context [bind (bind ?m _) _] => replace m with (OK h5) by (symmetry; exact E5) end. cbn [bind]. set (f4 := fA ++ Entry name (p_exec n4) s' :: fB). set (fp4 := b :: fpA ++ fps' ++ fpB).
    set (x4 := {| x_heap := h5; x_cur := x_cur x1; x_top := x_top x3; x_num := x_num x3 |}).
    assert (Eprof : p_prof n3 = d) by (cbn [p_prof n3 upd n1]; rewrite Epr; reflexivity).
    assert (Fr5 : forall c, In c fp4 -> forall c1, x_cur x1 = Some c1 -> fst c1 <> c).
    { intros c I c1 Qc Ec. assert (Nc := NC c1). rewrite C1 in Qc. specialize (Nc Qc). rewrite Ec in Nc. destruct I as [<- |I]; [apply Nc; left; reflexivity|]. apply in_app_or in I as [I|I]; [apply Nc; right; apply in_or_app; left; exact I|]. apply in_app_or in I as [I|I]; [|apply Nc; right; apply in_or_app; right; apply in_or_app; right; exact I].
      destruct (mv_fresh _ _ _ _ _ M3 _ I) as [I'|I']; [apply Nc; right; apply in_or_app; right; apply in_or_app; left; exact I'|]. cbn [x_heap x2] in I'. unfold h2 in I'. rewrite replace_length in I'. unfold holds in Ho. rewrite C1, Qc in Ho. destruct Ho as (nc & (ac & Hac & _) & _). apply nth_len in Hac. lia. }
    assert (Hb5 : nth_error h5 b = Some (Some (map Some (NA ++ n4 :: NB)))). { rewrite F5 by (apply Fr5; left; reflexivity). apply nth_replace_eq. eapply nth_len; eauto. }
    assert (FreshN : forall c, In c fps' -> ~ In c fpA /\ ~ In c fpB /\ c <> b).
    { intros c I. split; [|split]; [intros I2; destruct (NIA _ I2) as (_ & X1 & X2 & _)|intros I2; destruct (NIB _ I2) as (_ & X1 & X2)|intros ->; contradiction]; (destruct (mv_fresh _ _ _ _ _ M3 _ I) as [I'|I']; [contradiction|]; cbn [x_heap x2] in I'; unfold h2 in I'; rewrite replace_length in I'; lia). }
    assert (ND4 : NoDup fp4).
    { constructor.
      - intros I. apply in_app_or in I as [I|I]; [apply Nb; apply in_or_app; auto|]. apply in_app_or in I as [I|I]; [contradiction|apply Nb; apply in_or_app; right; apply in_or_app; auto].
      - apply NoDup_app_intro; [eapply NoDup_app_l; eauto|apply NoDup_app_intro; [exact ND3|eapply NoDup_app_r; eauto|]|].
        + intros c I I2. destruct (FreshN _ I) as (_ & X & _). contradiction.
        + intros c I I2. apply in_app_or in I2 as [I2|I2]; [destruct (FreshN _ I2) as (X & _); contradiction|]. destruct (NIA _ I) as (_ & _ & _ & X). contradiction. }
    assert (R4 : reps h5 (Some b) (length (NA ++ n4 :: NB)) f4 fp4).
    { unfold fp4. constructor; [exact Hb5|destruct NA; discriminate|]. unfold f4. apply app_nreps.
      - apply (nreps_frame _ _ _ _ _ RA). intros c I. rewrite F5 by (apply Fr5; right; apply in_or_app; auto). destruct (NIA _ I) as (X1 & X2 & X3 & _). apply Old; assumption.
      - replace name with (p_name n4) by (cbn [p_name n4 n3 upd n1]; exact En). constructor; [reflexivity| |].
        + cbn [p_subs p_num n4 n3 upd]. apply (reps_frame _ _ _ _ _ _ R3). intros c I. rewrite F5 by (apply Fr5; right; apply in_or_app; right; apply in_or_app; auto). apply nth_replace_neq. destruct (FreshN _ I) as (_ & _ & X). congruence.
        + apply (nreps_frame _ _ _ _ _ RB). intros c I. rewrite F5 by (apply Fr5; right; apply in_or_app; right; apply in_or_app; auto). destruct (NIB _ I) as (X1 & X2 & X3). apply Old; assumption. }
    assert (Len : length (NA ++ n4 :: NB) = length (NA ++ n :: NB)) by (rewrite !app_length; reflexivity).
    assert (Eov : (e2 - t0 - (e1 - t1 - p_prof n3))%Z = ov) by (rewrite Eprof, Ov; lia). rewrite Eov in P5.
    exists x4, f4, fp4. split; [reflexivity|]. split; [|split; [|split]].
    + split; [exact ND4|]. cbn [x_cur x4]. destruct (x_cur x1) as [c|] eqn:Qc.
      * destruct (P5 _ eq_refl) as (a & nc & Ha & Hnc & Xp & Xr & Xs & Xm & H5). exists (upd nc (p_exec nc) (p_prof nc + ov) (p_subs nc) (p_num nc) (p_parent nc)). cbn [x_heap x4 p_name p_prof p_subs p_num upd].
        split; [eexists; split; [exact H5|apply nth_replace_eq; eapply nth_len; eauto]|]. split; [exact Xp|]. split; [rewrite Xr; reflexivity|]. split; [rewrite Xs, Xm, <- Len; exact R4|]. intros I. apply (Fr5 _ I _ eq_refl). reflexivity.
      * unfold holds in Ho. rewrite Qc in Ho. destruct Ho as (Xp & Xt & Xn). split; [exact Xp|]. cbn [x_heap x_top x_num x4]. rewrite T3, N3, Xt, Xn, <- Len. exact R4.
    + inversion W1 as [f0 Wn We]; subst f0. constructor.
      * unfold f4. rewrite map_app in Wn |- *. exact Wn.
      * intros e I. unfold f4 in I. apply in_app_or in I as [I|[<- |I]]; [apply We; apply in_or_app; auto|exact Ws'|apply We; apply in_or_app; right; right; exact I].
    + replace ov with (0 + ov)%Z by lia. apply (moved_trans _ _ _ _ _ _ _ _ M1). constructor; cbn [x4 x_cur x_heap x_top x_num].
      * reflexivity.
      * rewrite L5. unfold h4. rewrite replace_length. lia.
      * intros c Lc Nc NQ. rewrite F5 by exact NQ. apply Old; [exact Lc| |]; [intros I; apply Nc; right; apply in_or_app; right; apply in_or_app; auto|intros ->; apply Nc; left; reflexivity].
      * intros c Qc. split; [exact T3|]. split; [exact N3|]. destruct (P5 _ Qc) as (a & nc & Ha & Hnc & Xp & Xr & Xs & Xm & H5). exists a, nc, (p_subs nc), (p_num nc). auto.
      * intros c [<- |I]; [left; left; reflexivity|]. apply in_app_or in I as [I|I]; [left; right; apply in_or_app; auto|]. apply in_app_or in I as [I|I]; [|left; right; apply in_or_app; right; apply in_or_app; auto].
        destruct (mv_fresh _ _ _ _ _ M3 _ I) as [I'|I']; [left; right; apply in_or_app; right; apply in_or_app; auto|right]. cbn [x_heap x2] in I'. unfold h2 in I'. rewrite replace_length in I'. exact I'.
      * intros c Lv. destruct (in_dec Nat.eq_dec c fp4) as [I|NI]; [left; exact I|right].
        assert (Ecase : (exists c1, x_cur x1 = Some c1 /\ fst c1 = c) \/ (forall c1, x_cur x1 = Some c1 -> fst c1 <> c)).
        { destruct (x_cur x1) as [c1|]; [|right; discriminate]. destruct (Nat.eq_dec (fst c1) c); [left; eauto|right; intros ? [= <-]; assumption]. }
        destruct Ecase as [(c1 & Q1 & <-)|NQ].
        -- destruct (P5 _ Q1) as (a & nc & Ha & _). split; [exists a; exact Ha|]. apply NC. rewrite <- C1. exact Q1.
        -- destruct Lv as (a & La). rewrite F5 in La by exact NQ. assert (Ncb : c <> b) by (intros ->; apply NI; left; reflexivity). unfold h4 in La. rewrite nth_replace_neq in La by congruence.
           destruct (mv_live _ _ _ _ _ M3 c) as [I|(Lv2 & NIs)]; [exists a; exact La|exfalso; apply NI; right; apply in_or_app; right; apply in_or_app; auto|]. cbn [x_heap x2] in Lv2. destruct Lv2 as (a2 & La2). unfold h2 in La2. rewrite nth_replace_neq in La2 by congruence. split; [exists a2; exact La2|].
           intros [Ec|I]; [congruence|]. apply in_app_or in I as [I|I]; [apply NI; right; apply in_or_app; auto|]. apply in_app_or in I as [I|I]; [contradiction|apply NI; right; apply in_or_app; right; apply in_or_app; auto].
    + intros q. unfold f4. cbn [own_time]. fold d. apply (section_val fA name (p_exec n) s fB f); [|exact Hf| |intros r I; eapply flat_measured_nonempty; eauto|exact V3].
      * inversion W1 as [f0 Wn We]; subst f0. rewrite map_app in Wn. cbn [map e_name] in Wn. apply strict_nodup in Wn. intros I. apply (NoDup_remove_2 _ _ _ Wn). apply in_or_app. auto.
      * cbn [p_exec n4]. rewrite Eprof. cbn [p_exec n3 upd n1]. lia.
Qed.
Lemma good_all : forall cs, good cs.
Proof.
  assert (H : forall c, good [c]).
  { fix IH 1. intros [name t0 t1 inside e1 e2]. apply good_call. induction inside as [|c l IHl]; [apply good_nil|]. apply good_cons; [apply IH|exact IHl]. }
  induction cs as [|c cs IH]; [apply good_nil|]. apply good_cons; [apply H|exact IH].
Qed.
