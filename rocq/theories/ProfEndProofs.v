(** * Proofs about the profiler: printing, freeing and the end *)
From Coq Require Import Permutation.
From Verif Require Import CBase CBaseFacts SearchModel SearchSpec SearchProofs CppArrayModel CppArraySpec CppArrayProofs ProfModel ProfSpec ProfProofs ProfRunProofs ProfReportProofs.
Open Scope nat_scope.

(** ** Printing *)
Definition fit_all (l : list (list cstr * Z)) : Prop := forall r, In r l -> fits (fst r).
Lemma fit_app a b : fit_all (a ++ b) -> fit_all a /\ fit_all b.
Proof. intros H. split; intros r I; apply H; apply in_or_app; auto. Qed.
Lemma column_ok p n : fits (p ++ [n]) -> name_column (length p) n = OK (column (p ++ [n])).
Proof.
  unfold fits, name_column, column. rewrite app_length, last_last. cbn [length]. replace (length p + 1 - 1) with (length p) by lia. intros F. destruct (Nat.leb_spec 1024 (length p + length n)); [lia|reflexivity].
Qed.
Definition print_subs (fuel : nat) (h : pheap) (n : pnode) (level : nat) := fix go (j m : nat) : res (list line) :=
  match m with
  | O => OK []
  | S m =>
    match p_subs n with
    | None => UB
    | Some s => do k <- node h (s, j); do l <- print_stack fuel h k (S level); do ls <- go (S j) m; OK (l ++ ls)
    end
  end.
Lemma print_stack_S fuel h n level : print_stack (S fuel) h n level = (do c <- name_column level (p_name n); do ls <- print_subs fuel h n level 0 (p_num n); OK ({| l_column := c; l_time := p_exec n |} :: ls)).
Proof. reflexivity. Qed.
Lemma print_stack_ok h : forall fuel n s fp p, reps h (p_subs n) (p_num n) s fp -> length (flat [] s) < fuel -> fit_all (flat_e p (Entry (p_name n) (p_exec n) s)) ->
  print_stack fuel h n (length p) = OK (map line_of (flat_e p (Entry (p_name n) (p_exec n) s))).
Proof.
  induction fuel as [|fuel IH]; intros n s fp p R Fu Fi; [lia|]. rewrite print_stack_S. cbn [flat_e] in *. fold (flat (p ++ [p_name n]) s) in *.
  rewrite column_ok by (apply (Fi (p ++ [p_name n], p_exec n)); left; reflexivity). cbn [bind].
  assert (Fs : fit_all (flat (p ++ [p_name n]) s)) by (intros r I; apply Fi; right; exact I).
  assert (Go : print_subs fuel h n (length p) 0 (p_num n) = OK (map line_of (flat (p ++ [p_name n]) s))).
  { destruct (reps_inv _ _ _ _ _ R) as [(_ & -> & -> & _)|(b & ns & fp' & Ea & -> & -> & Hb & _ & Rn)]; [reflexivity|].
    assert (G : forall B A f fpB, ns = A ++ B -> nreps h B f fpB -> length (flat [] f) <= length (flat [] s) -> fit_all (flat (p ++ [p_name n]) f) -> print_subs fuel h n (length p) (length A) (length B) = OK (map line_of (flat (p ++ [p_name n]) f))).
    { induction B as [|k B IHB]; intros A f fpB En RB Lf Ff; cbn [length print_subs].
      - inversion RB; subst. reflexivity.
      - destruct (nreps_cons_inv _ _ _ _ _ RB) as (sk & fr & fp1 & fp2 & -> & -> & _ & Rk & Rr). rewrite Ea, (node_ok _ _ _ _ k Hb) by (rewrite En; apply nth_map_mid). cbn [bind].
        rewrite flat_cons, app_length in Lf. cbn [length] in Lf. rewrite (flat_len _ [] sk) in Lf. rewrite flat_cons in Ff. apply fit_app in Ff as (F1 & F2).
        replace (S (length p)) with (length (p ++ [p_name n])) by (rewrite app_length; cbn; lia). rewrite (IH _ _ _ _ Rk) by (try lia; exact F1). cbn [bind].
        specialize (IHB (A ++ [k]) fr fp2). rewrite app_length in IHB. cbn [length] in IHB. rewrite Nat.add_1_r in IHB. rewrite IHB; [|rewrite <- app_assoc; exact En|exact Rr|lia|exact F2]. cbn [bind]. rewrite flat_cons, map_app. reflexivity. }
    apply (G ns [] s fp'); [reflexivity|exact Rn|lia|exact Fs]. }
  rewrite Go. cbn [bind map]. unfold line_of at 1. reflexivity.
Qed.
Lemma print_all_ok h b ns fuel : nth_error h b = Some (Some (map Some ns)) -> forall B A f fp, ns = A ++ B -> nreps h B f fp -> length (flat [] f) < fuel -> fit_all (flat [] f) ->
  print_all fuel h b (length A) (length B) = OK (map line_of (flat [] f)).
Proof.
  intros Hb. induction B as [|k B IHB]; intros A f fpB En RB Lf Ff; cbn [length print_all].
  - inversion RB; subst. reflexivity.
  - destruct (nreps_cons_inv _ _ _ _ _ RB) as (sk & fr & fp1 & fp2 & -> & -> & _ & Rk & Rr). rewrite (node_ok _ _ _ _ k Hb) by (rewrite En; apply nth_map_mid). cbn [bind].
    rewrite flat_cons, app_length in Lf. cbn [length] in Lf. rewrite (flat_len _ [] sk) in Lf. rewrite flat_cons in Ff. apply fit_app in Ff as (F1 & F2).
    change 0 with (length (@nil cstr)) at 1. rewrite (print_stack_ok h fuel k sk fp1 [] Rk) by (try lia; exact F1). cbn [bind].
    specialize (IHB (A ++ [k]) fr fp2). rewrite app_length in IHB. cbn [length] in IHB. rewrite Nat.add_1_r in IHB. rewrite IHB; [|rewrite <- app_assoc; exact En|exact Rr|lia|exact F2]. cbn [bind]. rewrite flat_cons, map_app. reflexivity.
Qed.

(** ** Freeing *)
Definition freed (h h' : pheap) (fp : list nat) : Prop := length h' = length h /\ (forall b, In b fp -> nth_error h' b = Some None) /\ (forall b, ~ In b fp -> nth_error h' b = nth_error h b).
Lemma freed_refl h : freed h h [].
Proof. repeat split; auto. intros b []. Qed.
Lemma freed_app h h1 h2 a b : (forall x, In x a -> In x b -> False) -> freed h h1 a -> freed h1 h2 b -> freed h h2 (a ++ b).
Proof.
  intros D (L1 & I1 & O1) (L2 & I2 & O2). split; [lia|]. split.
  - intros c I. destruct (in_dec Nat.eq_dec c b) as [J|N]; [apply I2; exact J|]. rewrite O2 by exact N. apply I1. apply in_app_or in I as [I|I]; [exact I|contradiction].
  - intros c N. rewrite O2 by (intros I; apply N; apply in_or_app; auto). apply O1. intros I. apply N. apply in_or_app. auto.
Qed.
Lemma p_free_ok h b a : nth_error h b = Some (Some a) -> exists h', p_free h b = OK h' /\ freed h h' [b].
Proof.
  intros H. unfold p_free. rewrite (block_ok _ _ _ H). cbn [bind]. assert (L : b < length h) by (eapply nth_len; eauto). rewrite aset_replace by exact L. eexists. split; [reflexivity|]. split; [apply replace_length|]. split.
  - intros c [<- |[]]. apply nth_replace_eq. exact L.
  - intros c N. apply nth_replace_neq. intros ->. apply N. left. reflexivity.
Qed.
Lemma freed_perm h h' a b : (forall x, In x a <-> In x b) -> freed h h' a -> freed h h' b.
Proof. intros P (L & I & O). split; [exact L|]. split; intros c H; [apply I; apply P; exact H|apply O; intros J; apply H; apply P; exact J]. Qed.

Definition free_subs (fuel : nat) (n : pnode) := fix go (h : pheap) (j m : nat) : res pheap :=
  match m with
  | O => OK h
  | S m =>
    match p_subs n with
    | None => UB
    | Some s => do k <- node h (s, j); do h <- free_stack fuel h k; go h (S j) m
    end
  end.
Lemma free_stack_S fuel h n : free_stack (S fuel) h n = (do h <- free_subs fuel n h 0 (p_num n); match p_subs n with Some s => p_free h s | None => OK h end).
Proof. reflexivity. Qed.
Lemma free_stack_ok : forall fuel h n s fp, reps h (p_subs n) (p_num n) s fp -> NoDup fp -> length (flat [] s) < fuel -> exists h', free_stack fuel h n = OK h' /\ freed h h' fp.
Proof.
  induction fuel as [|fuel IH]; intros h n s fp R ND Fu; [lia|]. rewrite free_stack_S.
  destruct (reps_inv _ _ _ _ _ R) as [(Ea & -> & -> & ->)|(b & ns & fp' & Ea & -> & -> & Hb & _ & Rn)]; rewrite Ea; [exists h; split; [reflexivity|apply freed_refl]|]. inversion ND as [|? ? Nb ND']; subst.
  assert (G : forall B A f fpB h0, ns = A ++ B -> nth_error h0 b = Some (Some (map Some ns)) -> nreps h0 B f fpB -> NoDup fpB -> ~ In b fpB -> length (flat [] f) <= length (flat [] s) -> exists h1, free_subs fuel n h0 (length A) (length B) = OK h1 /\ freed h0 h1 fpB).
  { induction B as [|k B IHB]; intros A f fpB h0 En H0 RB N0 Nb0 Lf; cbn [length free_subs].
    - inversion RB; subst. exists h0. split; [reflexivity|apply freed_refl].
    - destruct (nreps_cons_inv _ _ _ _ _ RB) as (sk & fr & fp1 & fp2 & -> & -> & _ & Rk & Rr). rewrite Ea, (node_ok _ _ _ _ k H0) by (rewrite En; apply nth_map_mid). cbn [bind].
      rewrite flat_cons, app_length in Lf. cbn [length] in Lf. rewrite (flat_len _ [] sk) in Lf. destruct (IH h0 k sk fp1 Rk) as (h1 & E1 & F1); [eapply NoDup_app_l; eauto|lia|]. rewrite E1. cbn [bind].
      destruct F1 as (Ln & In1 & Out1). destruct (IHB (A ++ [k]) fr fp2 h1) as (h2 & E2 & F2).
      + rewrite <- app_assoc. exact En.
      + rewrite Out1; [exact H0|]. intros I. apply Nb0. apply in_or_app. auto.
      + apply (nreps_frame _ _ _ _ _ Rr). intros c I. apply Out1. intros I2. eapply NoDup_app_disj; eauto.
      + eapply NoDup_app_r; eauto.
      + intros I. apply Nb0. apply in_or_app. auto.
      + lia.
      + rewrite app_length in E2. cbn [length] in E2. rewrite Nat.add_1_r in E2. exists h2. split; [exact E2|]. apply (freed_app h0 h1 h2); [intros x I J; eapply NoDup_app_disj; eauto|split; [exact Ln|split; assumption]|exact F2]. }
  destruct (G ns [] s fp' h eq_refl Hb Rn ND' Nb (le_n _)) as (h1 & E1 & F1). cbn [length] in E1. rewrite E1. cbn [bind]. destruct F1 as (Ln & In1 & Out1).
  destruct (p_free_ok h1 b (map Some ns)) as (h2 & E2 & F2); [rewrite Out1 by exact Nb; exact Hb|]. exists h2. split; [exact E2|]. apply (freed_perm _ _ (fp' ++ [b])); [intros x; rewrite in_app_iff; cbn; tauto|]. apply (freed_app h h1 h2); [intros x I [<- |[]]; contradiction|split; [exact Ln|split; assumption]|exact F2].
Qed.
Lemma free_all_ok b ns fuel : forall B A f fpB h0, ns = A ++ B -> nth_error h0 b = Some (Some (map Some ns)) -> nreps h0 B f fpB -> NoDup fpB -> ~ In b fpB -> length (flat [] f) < fuel -> exists h1, free_all fuel h0 b (length A) (length B) = OK h1 /\ freed h0 h1 fpB.
Proof.
  induction B as [|k B IHB]; intros A f fpB h0 En H0 RB N0 Nb0 Lf; cbn [length free_all].
  - inversion RB; subst. exists h0. split; [reflexivity|apply freed_refl].
  - destruct (nreps_cons_inv _ _ _ _ _ RB) as (sk & fr & fp1 & fp2 & -> & -> & _ & Rk & Rr). rewrite (node_ok _ _ _ _ k H0) by (rewrite En; apply nth_map_mid). cbn [bind].
    rewrite flat_cons, app_length in Lf. cbn [length] in Lf. rewrite (flat_len _ [] sk) in Lf. destruct (free_stack_ok fuel h0 k sk fp1 Rk) as (h1 & E1 & F1); [eapply NoDup_app_l; eauto|lia|]. rewrite E1. cbn [bind].
    destruct F1 as (Ln & In1 & Out1). destruct (IHB (A ++ [k]) fr fp2 h1) as (h2 & E2 & F2).
    + rewrite <- app_assoc. exact En.
    + rewrite Out1; [exact H0|]. intros I. apply Nb0. apply in_or_app. auto.
    + apply (nreps_frame _ _ _ _ _ Rr). intros c I. apply Out1. intros I2. eapply NoDup_app_disj; eauto.
    + eapply NoDup_app_r; eauto.
    + intros I. apply Nb0. apply in_or_app. auto.
    + lia.
    + rewrite app_length in E2. cbn [length] in E2. rewrite Nat.add_1_r in E2. exists h2. split; [exact E2|]. apply (freed_app h0 h1 h2); [intros x I J; eapply NoDup_app_disj; eauto|split; [exact Ln|split; assumption]|exact F2].
Qed.
Lemma free_top b ns f fp h fuel : nth_error h b = Some (Some (map Some ns)) -> nreps h ns f fp -> NoDup (b :: fp) -> length (flat [] f) < fuel ->
  exists h2, (do h <- free_all fuel h b 0 (length ns); p_free h b) = OK h2 /\ freed h h2 (b :: fp).
Proof.
  intros Hb R ND Fu. inversion ND; subst. destruct (free_all_ok b ns fuel ns [] f fp h eq_refl Hb R H2 H1 Fu) as (h1 & E1 & F1). cbn [length] in E1. rewrite E1. cbn [bind]. destruct F1 as (Ln & In1 & Out1).
  destruct (p_free_ok h1 b (map Some ns)) as (h2 & E2 & F2); [rewrite Out1 by assumption; exact Hb|]. exists h2. split; [exact E2|]. apply (freed_perm _ _ (fp ++ [b])); [intros x; rewrite in_app_iff; cbn; tauto|]. apply (freed_app h h1 h2); [intros x I [<- |[]]; contradiction|split; [exact Ln|split; assumption]|exact F2].
Qed.

(** ** Paths and values *)
Lemma flat_prefix_e : forall e p r, In r (flat_e p e) -> exists q, fst r = p ++ e_name e :: q.
Proof.
  fix IH 1. intros [n t s] p r. cbn [flat_e e_name]. intros [<- |I]; [exists []; reflexivity|]. cut (exists q, fst r = (p ++ [n]) ++ q); [intros (q & ->); exists q; rewrite <- app_assoc; reflexivity|].
  revert I. generalize (p ++ [n]). clear p. intros p. induction s as [|e s IHs]; intros I; [destruct I|]. cbn [flat_map] in I. apply in_app_or in I as [I|I]; [destruct (IH _ _ _ I) as (q & ->); eauto|apply IHs; exact I].
Qed.
Lemma flat_prefix p f r : In r (flat p f) -> exists n q, In n (map e_name f) /\ fst r = p ++ n :: q.
Proof. intros I. apply in_flat_map in I as (e & Ie & I). destruct (flat_prefix_e _ _ _ I) as (q & ->). exists (e_name e), q. split; [apply in_map; exact Ie|reflexivity]. Qed.
Lemma wf_cons_inv n t s f : wf (Entry n t s :: f) -> wf s /\ wf f /\ ~ In n (map e_name f).
Proof.
  intros W. inversion W as [g Wn We]; subst. split; [apply (We _ (or_introl eq_refl))|]. split.
  - constructor; [inversion Wn; assumption|]. intros e I. apply We. right. exact I.
  - apply strict_nodup in Wn. inversion Wn; assumption.
Qed.
Lemma flat_nodup_size : forall k f p, length (flat [] f) <= k -> wf f -> NoDup (map fst (flat p f)).
Proof.
  induction k as [|k IH]; intros f p L W; destruct f as [|[n t s] f]; try (constructor; fail); rewrite flat_cons, app_length in L; cbn [length] in L; [lia|].
  apply wf_cons_inv in W as (W1 & W2 & Nn). rewrite flat_cons. cbn [app map fst]. rewrite map_app. rewrite (flat_len _ [] s) in L.
  change ((p ++ [n]) :: map fst (flat (p ++ [n]) s) ++ map fst (flat p f)) with (((p ++ [n]) :: map fst (flat (p ++ [n]) s)) ++ map fst (flat p f)). apply NoDup_app_intro.
  - constructor; [|apply IH; [lia|exact W1]]. intros I. apply in_map_iff in I as (r & E & I). destruct (flat_prefix _ _ _ I) as (m & q & _ & E2). rewrite E in E2. rewrite <- (app_nil_r (p ++ [n])) in E2 at 1. apply app_inv_head in E2. discriminate.
  - apply IH; [lia|exact W2].
  - intros q I J. assert (Hq : exists q', q = p ++ n :: q'). { destruct I as [<- |I]; [exists []; reflexivity|]. apply in_map_iff in I as (r & <- & I). destruct (flat_prefix _ _ _ I) as (m & q' & _ & ->). rewrite <- app_assoc. cbn. eauto. }
    destruct Hq as (q' & ->). apply in_map_iff in J as (r & E & J). destruct (flat_prefix _ _ _ J) as (m & q2 & Im & E2). rewrite E in E2. apply app_inv_head in E2. injection E2 as -> _. contradiction.
Qed.
Lemma flat_nodup f p : wf f -> NoDup (map fst (flat p f)).
Proof. apply (flat_nodup_size (length (flat [] f))). lia. Qed.
Lemma find_none n f : ~ In n (map e_name f) -> find n f = None.
Proof. induction f as [|[m t s] f IH]; intros N; [reflexivity|]. cbn [find]. cbn [map In e_name] in N. destruct (list_eq_dec Z.eq_dec m n); [tauto|]. apply IH. tauto. Qed.
Lemma find_in n f t s : find n f = Some (t, s) -> In n (map e_name f).
Proof. intros H. destruct (in_dec (list_eq_dec Z.eq_dec) n (map e_name f)) as [I|N]; [exact I|]. rewrite find_none in H by exact N. discriminate. Qed.
Lemma flat_val_size : forall k f p, length (flat [] f) <= k -> wf f -> forall q t, In (p ++ q, t) (flat p f) <-> val f q = Some t.
Proof.
  induction k as [|k IH]; intros f p L W q t; destruct f as [|[n u s] f]; try (split; [intros []|destruct q; cbn; discriminate]); rewrite flat_cons, app_length in L; cbn [length] in L; [lia|].
  apply wf_cons_inv in W as (W1 & W2 & Nn). rewrite (flat_len _ [] s) in L. rewrite flat_cons. cbn [app In]. destruct q as [|m q].
  - split; [|discriminate]. intros I. exfalso. assert (I2 : In (p ++ [], t) (flat p (Entry n u s :: f))) by (rewrite flat_cons; exact I). destruct (flat_prefix _ _ _ I2) as (m & q & _ & E). cbn [fst] in E. apply app_inv_head in E. discriminate.
  - cbn [val find]. destruct (list_eq_dec Z.eq_dec n m) as [<- |N].
    + assert (NoF : In (p ++ n :: q, t) (flat p f) -> False). { intros I. destruct (flat_prefix _ _ _ I) as (m & q2 & Im & E). cbn [fst] in E. apply app_inv_head in E. injection E as -> _. contradiction. }
      rewrite in_app_iff. replace (p ++ n :: q) with ((p ++ [n]) ++ q) in * by (rewrite <- app_assoc; reflexivity). rewrite (IH s (p ++ [n]) ltac:(lia) W1 q t). destruct q as [|m q].
      * rewrite app_nil_r in *. cbn [val]. split; [intros [E|[E|E]]; [congruence|discriminate|contradiction]|intros [= <-]; left; reflexivity].
      * split; [intros [E|[E|E]]; [exfalso|exact E|contradiction]|auto]. injection E as E _. rewrite <- (app_nil_r (p ++ [n])) in E at 1. apply app_inv_head in E. discriminate.
    + pose proof (IH f p ltac:(lia) W2 (m :: q) t) as H. cbn [val] in H. rewrite in_app_iff, <- H. split; [|auto]. intros [E|[E|E]]; [|exfalso|exact E]; [injection E as E _; apply app_inv_head in E; congruence|].
      destruct (flat_prefix _ _ _ E) as (m2 & q2 & _ & E2). cbn [fst] in E2. rewrite <- app_assoc in E2. apply app_inv_head in E2. cbn in E2. congruence.
Qed.
Lemma flat_val f q t : wf f -> (In (q, t) (flat [] f) <-> val f q = Some t).
Proof. intros W. apply (flat_val_size (length (flat [] f)) f [] ltac:(lia) W). Qed.
Lemma flat_tree_size : forall k f p, length (flat [] f) <= k -> tree_order p (flat p f).
Proof.
  induction k as [|k IH]; intros f p L; destruct f as [|[n u s] f]; try apply (T_nil p); rewrite flat_cons, app_length in L; cbn [length] in L; [lia|]. rewrite (flat_len _ [] s) in L. rewrite flat_cons. cbn [app]. constructor; apply IH; lia.
Qed.
Lemma flat_tree f : tree_order [] (flat [] f).
Proof. apply (flat_tree_size (length (flat [] f))). lia. Qed.
Lemma flat_outermost f : outermost (flat [] f) = map e_time f.
Proof.
  unfold outermost. induction f as [|[n t s] f IH]; [reflexivity|]. rewrite flat_cons. cbn [app filter fst length Nat.eqb map e_time snd]. f_equal. rewrite filter_app, map_app, IH.
  replace (filter (fun r => length (fst r) =? 1) (flat [n] s)) with (@nil (list cstr * Z)); [reflexivity|]. assert (H : forall r, In r (flat [n] s) -> (length (fst r) =? 1) = false).
  { intros r I. destruct (flat_prefix _ _ _ I) as (m & q & _ & ->). cbn [app length]. reflexivity. }
  revert H. generalize (flat [n] s). intros l H. induction l as [|r l IHl]; [reflexivity|]. cbn [filter]. rewrite H by (left; reflexivity). apply IHl. intros r' I. apply H. right. exact I.
Qed.
Lemma nreps_times h ns f fp : nreps h ns f fp -> map e_time f = map p_exec ns.
Proof. induction ns as [|n ns IH] in f, fp |- *; intros R; inversion R; subst; cbn [map e_time]; [reflexivity|]. f_equal. eauto. Qed.

(** ** The whole *)
Record final (x : ctx) (cs : list call) (f : list entry) : Prop := {
  fi_cur : x_cur x = None;
  fi_wf : wf f;
  fi_val : forall q, val f q = oplus None (times q (all_measured cs));
  fi_mem : (cs = [] /\ x_top x = None /\ x_num x = 0 /\ f = [] /\ forall b, ~ plive (x_heap x) b) \/
    exists b ns fp, cs <> [] /\ x_top x = Some b /\ x_num x = length ns /\ ns <> [] /\ nth_error (x_heap x) b = Some (Some (map Some ns)) /\ nreps (x_heap x) ns f fp /\ NoDup (b :: fp) /\ (forall c, plive (x_heap x) c -> In c (b :: fp)) }.
Lemma run_final x cs : idle x -> exists x' f, run_calls x cs = OK x' /\ final x' cs f.
Proof.
  intros (C & T & N & Dead). assert (HS : site x None 0 [] []). { split; [constructor|]. rewrite C. split; [reflexivity|]. rewrite T, N. constructor. }
  assert (W : wf []) by (constructor; [constructor|intros ? []]).
  destruct (good_all cs _ _ _ _ _ HS W) as (x' & f & fp & E & S1 & W1 & M & V). exists x', f. split; [exact E|]. pose proof (mv_cur _ _ _ _ _ M) as C1. rewrite C in C1.
  assert (Live : forall b, plive (x_heap x') b -> In b fp). { intros b L. destruct (mv_live _ _ _ _ _ M _ L) as [I|((a & La) & _)]; [exact I|]. exfalso. apply (Dead b). eauto. }
  assert (Vf : forall q, val f q = oplus None (times q (all_measured cs))) by (intros q; rewrite V; destruct q; reflexivity).
  constructor; [exact C1|exact W1|exact Vf|]. destruct S1 as (ND & S1). rewrite C1 in S1. destruct S1 as (_ & R).
  destruct (reps_inv _ _ _ _ _ R) as [(Ea & Em & -> & ->)|(b & ns & fp' & Ea & Em & -> & Hb & NE & Rn)].
  - left. split; [|repeat split; auto; intros b L; apply (Live b L)]. destruct cs as [|[name t0 t1 inside e1 e2] cs]; [reflexivity|]. specialize (Vf [name]). cbn [val find] in Vf. unfold all_measured in Vf. cbn [flat_map measured same_name] in Vf. unfold times in Vf. cbn [app filter fst] in Vf. destruct (list_eq_dec (list_eq_dec Z.eq_dec) [name] [name]); [discriminate|congruence].
  - right. exists b, ns, fp'. split; [|repeat split; auto]. intros ->. specialize (Vf [e_name (hd (Entry [] 0 []) f)]). destruct f as [|[n t s] f]; [apply nreps_length in Rn; destruct ns; [congruence|discriminate]|]. cbn [hd e_name val find] in Vf. destruct (list_eq_dec Z.eq_dec n n); [discriminate|congruence].
Qed.
Lemma oplus_some l t : oplus None l = Some t <-> l <> [] /\ t = zsum l.
Proof. destruct l as [|z l]; cbn [oplus]; [split; [discriminate|intros (H & _); congruence]|]. rewrite Z.add_0_l. split; [intros [= <-]; split; [discriminate|reflexivity]|intros (_ & ->); reflexivity]. Qed.
Lemma times_in q l : times q l <> [] <-> exists t, In (q, t) l.
Proof.
  unfold times. induction l as [|[p u] l IH]; cbn [filter fst]; [split; [intros H; exfalso; apply H; reflexivity|intros (t & [])]|]. destruct (list_eq_dec (list_eq_dec Z.eq_dec) p q) as [-> |N].
  - split; [intros _; exists u; left; reflexivity|discriminate].
  - rewrite IH. split; intros (t & I); exists t; [right; exact I|destruct I as [I|I]; [congruence|exact I]].
Qed.
Lemma end_ok x cs f : final x cs f -> (forall q t, In (q, t) (all_measured cs) -> fits q) -> exists n, forall fuel, n <= fuel ->
  exists x' r, end_profiling fuel x Can_open = OK (x', match cs with [] => None | _ => Some (map line_of r) end) /\ idle x' /\ report_of cs r /\ descending (outermost r).
Proof.
  intros [C W V Mem] Fit. assert (Fall : forall r, In r (flat [] f) -> fits (fst r)).
  { intros [q t] I. apply (flat_val _ _ _ W) in I. rewrite V in I. apply oplus_some in I as (I & _). apply times_in in I as (u & I). apply (Fit _ _ I). }
  assert (Rep : forall r, Permutation (flat [] f) r -> tree_order [] r -> report_of cs r).
  { intros r P T. split; [exact T|]. split; [apply (Permutation_NoDup (Permutation_map fst P)); apply flat_nodup; exact W|]. intros q t. rewrite <- oplus_some, <- V, <- (flat_val f q t W). split; intros I; [apply (Permutation_in _ (Permutation_sym P)); exact I|apply (Permutation_in _ P); exact I]. }
  unfold end_profiling. rewrite C. destruct Mem as [(-> & T & N & -> & Dead)|(b & ns & fp & Ncs & T & N & NE & Hb & R & ND & Live)]; rewrite N, ?T.
  - exists 0. intros fuel _. cbn [Nat.eqb]. eexists _, []. split; [reflexivity|]. split; [|split; [apply Rep; [reflexivity|constructor]|constructor]]. split; [reflexivity|]. split; [reflexivity|]. split; [reflexivity|]. cbn [x_heap]. intros b' L. apply (Dead b' L).
  - destruct (Nat.eqb_spec (length ns) 0) as [E0|_]; [destruct ns; [congruence|discriminate]|]. exists (length ns + 2 + 2 * length (flat [] f)). intros fuel Fu.
    assert (Lf : length f = length ns) by (eapply nreps_length; eauto).
    destruct (quick_sort_ok fuel (x_heap x) b [] ns [] f fp) as (h1 & M & f1 & fp1 & E1 & L1 & Hb1 & PM & DM & R1 & Pf & Pl & Fr).
    { cbn [app]. rewrite app_nil_r. exact Hb. } { cbn [app]. rewrite app_nil_r. exact NE. } { cbn [app]. rewrite app_nil_r. exact R. } { exact ND. } { lia. }
    cbn [length] in E1. change (Z.of_nat 0) with 0%Z in E1. rewrite Z.add_0_l in E1. rewrite E1. cbn [bind app] in *. rewrite app_nil_r in *. clear E1.
    assert (Lfl : length (flat [] f1) = length (flat [] f)) by (symmetry; apply Permutation_length; apply Pl). assert (LM : length ns = length M) by (apply Permutation_length; exact PM).
    assert (Pr : print_all fuel h1 b 0 (length ns) = OK (map line_of (flat [] f1))).
    { rewrite LM. apply (print_all_ok h1 b M fuel Hb1 M [] f1 fp1); [reflexivity|exact R1|lia|]. intros r I. apply Fall. apply (Permutation_in _ (Permutation_sym (Pl []))). exact I. }
    rewrite Pr. cbn [bind]. assert (ND1 : NoDup (b :: fp1)) by (apply (Permutation_NoDup (perm_skip b Pf)); exact ND).
    destruct (free_top b M f1 fp1 h1 fuel Hb1 R1 ND1) as (h2 & E2 & L2 & In2 & Out2); [lia|]. rewrite <- LM in E2. destruct (free_all fuel h1 b 0 (length ns)) as [h3| |]; try discriminate. cbn [bind] in *. rewrite E2. cbn [bind].
    eexists _, (flat [] f1). split; [destruct cs; [congruence|reflexivity]|]. split; [|split; [apply Rep; [apply Pl|apply flat_tree]|rewrite flat_outermost, (nreps_times _ _ _ _ R1); exact DM]].
    split; [reflexivity|]. split; [reflexivity|]. split; [reflexivity|]. cbn [x_heap]. intros c (a & La). destruct (in_dec Nat.eq_dec c (b :: fp1)) as [I|NI]; [rewrite In2 in La by exact I; discriminate|]. rewrite Out2 in La by exact NI.
    assert (NI2 : ~ In c (b :: fp)). { intros I. apply NI. apply (Permutation_in _ (perm_skip b Pf)). exact I. } rewrite Fr in La by exact NI2. apply NI2. apply Live. exists a. exact La.
Qed.
Lemma end_no_name_ok x cs f : final x cs f -> exists n, forall fuel, n <= fuel -> exists x', end_profiling fuel x No_name = OK (x', None) /\ idle x'.
Proof.
  intros [C W V Mem]. unfold end_profiling. rewrite C. destruct Mem as [(-> & T & N & -> & Dead)|(b & ns & fp & Ncs & T & N & NE & Hb & R & ND & Live)]; rewrite N, ?T.
  - exists 0. intros fuel _. cbn [Nat.eqb]. eexists. split; [reflexivity|]. split; [reflexivity|]. split; [reflexivity|]. split; [reflexivity|]. cbn [x_heap]. intros b' L. apply (Dead b' L).
  - exists (S (length (flat [] f))). intros fuel Fu. destruct (Nat.eqb_spec (length ns) 0) as [E0|_]; [destruct ns; [congruence|discriminate]|].
    destruct (free_top b ns f fp (x_heap x) fuel Hb R ND) as (h2 & E2 & L2 & In2 & Out2); [lia|]. destruct (free_all fuel (x_heap x) b 0 (length ns)) as [h3| |]; try discriminate. cbn [bind] in *. rewrite E2. cbn [bind]. eexists. split; [reflexivity|].
    split; [reflexivity|]. split; [reflexivity|]. split; [reflexivity|]. cbn [x_heap]. intros c (a & La). destruct (in_dec Nat.eq_dec c (b :: fp)) as [I|NI]; [rewrite In2 in La by exact I; discriminate|]. rewrite Out2 in La by exact NI. apply NI. apply Live. exists a. exact La.
Qed.

(** ** The clock *)
Lemma asc_app_inv a b : ascending (a ++ b) -> ascending a /\ ascending b /\ forall x y, In x a -> In y b -> (x <= y)%Z.
Proof.
  induction a as [|z a IH]; intros H; [repeat split; [constructor|exact H|intros ? ? []]|]. cbn [app] in H. inversion H; subst. destruct (IH H3) as (A1 & A2 & A3). split; [constructor; [intros y I; apply H2; apply in_or_app; auto|exact A1]|]. split; [exact A2|]. intros x y [<- |I] J; [apply H2; apply in_or_app; auto|apply A3; assumption].
Qed.
Lemma overhead_bounds : forall c, ascending (readings c) -> match c with Call _ t0 t1 inside e1 e2 => 0 <= overhead c <= e2 - t0 /\ 0 <= zsum (map overhead inside) <= e1 - t1 end%Z.
Proof.
  fix IH 1. intros [name t0 t1 inside e1 e2] A. cbn [readings] in A. inversion A as [|? ? H0 A0]; subst. inversion A0 as [|? ? H1 A1]; subst. apply asc_app_inv in A1 as (Ai & Ae & Aie).
  inversion Ae as [|? ? He _]; subst. assert (E12 : (e1 <= e2)%Z) by (apply He; left; reflexivity). assert (T01 : (t0 <= t1)%Z) by (apply H0; left; reflexivity).
  assert (T1 : forall z, In z (flat_map readings inside) -> (t1 <= z)%Z) by (intros z I; apply H1; apply in_or_app; auto). assert (E1 : forall z, In z (flat_map readings inside) -> (z <= e1)%Z) by (intros z I; apply Aie; [exact I|left; reflexivity]).
  assert (L1 : (t1 <= e1)%Z) by (apply H1; apply in_or_app; right; left; reflexivity).
  assert (K : (0 <= zsum (map overhead inside) <= e1 - t1)%Z).
  { clear - IH Ai T1 E1 L1. revert t1 L1 T1. induction inside as [|c l IHl]; intros t1 L1 T1; cbn [map]; unfold zsum; cbn [fold_right]; [lia|]. fold (zsum (map overhead l)). cbn [flat_map] in *. apply asc_app_inv in Ai as (Ac & Al & Acl).
    pose proof (IH c Ac) as B. destruct c as [n u0 u1 ins v1 v2]. destruct B as (B & _).
    assert (Iu : In u0 (readings (Call n u0 u1 ins v1 v2))) by (left; reflexivity). assert (Iv : In v2 (readings (Call n u0 u1 ins v1 v2))) by (cbn [readings]; right; right; apply in_or_app; right; right; left; reflexivity).
    assert (t1 <= u0)%Z by (apply T1; apply in_or_app; auto). assert (v2 <= e1)%Z by (apply E1; apply in_or_app; auto).
    specialize (IHl Al ltac:(intros z I; apply E1; apply in_or_app; auto) v2 ltac:(lia) ltac:(intros z I; apply Acl; assumption)). lia. }
  split; [|exact K]. cbn [overhead]. lia.
Qed.
