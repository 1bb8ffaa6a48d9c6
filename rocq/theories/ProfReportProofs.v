(** * Proofs about the profiler: the report *)
From Coq Require Import Permutation.
From Verif Require Import CBase CBaseFacts SearchModel SearchSpec SearchProofs CppArrayModel CppArraySpec CppArrayProofs ProfModel ProfSpec ProfProofs ProfRunProofs.
Open Scope nat_scope.

(** ** Paths of a tree *)
Fixpoint flat_e (p : list cstr) (e : entry) {struct e} : list (list cstr * Z) :=
  match e with Entry n t s => (p ++ [n], t) :: flat_map (flat_e (p ++ [n])) s end.
Definition flat (p : list cstr) (f : list entry) : list (list cstr * Z) := flat_map (flat_e p) f.
Definition e_time (e : entry) : Z := match e with Entry _ t _ => t end.
Lemma flat_cons p n t s f : flat p (Entry n t s :: f) = ((p ++ [n], t) :: flat (p ++ [n]) s) ++ flat p f.
Proof. reflexivity. Qed.
Lemma flat_app p f g : flat p (f ++ g) = flat p f ++ flat p g.
Proof. apply flat_map_app. Qed.
Lemma flat_perm p f g : Permutation f g -> Permutation (flat p f) (flat p g).
Proof. intros H. unfold flat. induction H; cbn [flat_map]; auto; [apply Permutation_app_head; assumption| |eapply Permutation_trans; eauto]. rewrite !app_assoc. apply Permutation_app_tail. apply Permutation_app_comm. Qed.
Lemma flat_ge p f : length f <= length (flat p f).
Proof. induction f as [|[n t s] f IH]; [cbn; lia|]. rewrite flat_cons, app_length. cbn [length]. lia. Qed.
Lemma flat_len_e : forall e p q, length (flat_e p e) = length (flat_e q e).
Proof.
  fix IH 1. intros [n t s] p q. cbn [flat_e length]. f_equal. generalize (p ++ [n]) (q ++ [n]). clear p q. induction s as [|e s IHs]; intros p q; [reflexivity|]. cbn [flat_map]. rewrite !app_length. f_equal; [apply IH|apply IHs].
Qed.
Lemma flat_len p q f : length (flat p f) = length (flat q f).
Proof. unfold flat. induction f as [|e f IH]; [reflexivity|]. cbn [flat_map]. rewrite !app_length. f_equal; [apply flat_len_e|exact IH]. Qed.

(** ** The order of nodes *)
Lemma nreps_perm h ns ns' : Permutation ns ns' -> forall f fp, nreps h ns f fp -> exists f' fp', nreps h ns' f' fp' /\ Permutation fp fp' /\ Permutation f f'.
Proof.
  induction 1 as [|n ns ns' H IH|n m ns|a b c _ IH1 _ IH2]; intros f fp R.
  - exists f, fp. auto.
  - inversion R; subst. match goal with X : nreps h ns _ _ |- _ => destruct (IH _ _ X) as (f' & fp' & R' & P1 & P2) end. exists (Entry (p_name n) (p_exec n) s :: f'), (fp1 ++ fp'). split; [constructor; assumption|]. split; [apply Permutation_app_head; exact P1|constructor; exact P2].
  - inversion R; subst. match goal with X : nreps h (_ :: ns) _ _ |- _ => inversion X; subst end. exists (Entry (p_name n) (p_exec n) s0 :: Entry (p_name m) (p_exec m) s :: f), (fp0 ++ fp1 ++ fp3). split; [repeat constructor; assumption|]. split; [rewrite !app_assoc; apply Permutation_app_tail; apply Permutation_app_comm|constructor]. 
  - destruct (IH1 _ _ R) as (f1 & fp1 & R1 & P1 & P2). destruct (IH2 _ _ R1) as (f2 & fp2 & R2 & P3 & P4). exists f2, fp2. split; [exact R2|]. split; eapply Permutation_trans; eauto.
Qed.

Lemma nreps_cons_inv h n ns f fp : nreps h (n :: ns) f fp -> exists s fr fp1 fp2, f = Entry (p_name n) (p_exec n) s :: fr /\ fp = fp1 ++ fp2 /\ p_prof n = 0%Z /\ reps h (p_subs n) (p_num n) s fp1 /\ nreps h ns fr fp2.
Proof. intros R. inversion R; subst. eauto 12. Qed.
Lemma reps_inv h a m s fp : reps h a m s fp -> (a = None /\ m = 0 /\ s = [] /\ fp = []) \/
  exists b ns fp', a = Some b /\ m = length ns /\ fp = b :: fp' /\ nth_error h b = Some (Some (map Some ns)) /\ ns <> [] /\ nreps h ns s fp'.
Proof. intros R. inversion R; subst; [left; auto|right]. exists b, ns, fp0. auto 8. Qed.

(** ** Partition *)
Lemma nth_app_off {A} (l r : list A) k i : k = length l + i -> nth_error (l ++ r) k = nth_error r i.
Proof. intros ->. rewrite nth_error_app2 by lia. f_equal. lia. Qed.
Lemma swap_ok (a b c : list pnode) x y i j : i = length a -> j = S (length a + length b) ->
  swap (map Some (a ++ x :: b ++ y :: c)) i j = OK (map Some (a ++ y :: b ++ x :: c)).
Proof.
  intros -> ->. unfold swap, aget. rewrite nth_map_mid. cbn [bind].
  assert (E : forall u, a ++ u :: b ++ y :: c = (a ++ u :: b) ++ y :: c) by (intros; rewrite <- app_assoc; reflexivity).
  assert (L : forall u, S (length a + length b) = length (a ++ u :: b)) by (intros; rewrite app_length; cbn; lia).
  rewrite (E x). rewrite (L x) at 1. rewrite nth_map_mid. cbn [bind]. rewrite <- E.
  rewrite aset_replace by (rewrite map_length, app_length; cbn; lia). cbn [bind]. rewrite replace_map_mid.
  rewrite (E y). rewrite (L y). rewrite aset_replace by (rewrite map_length, !app_length; cbn [length]; lia). rewrite replace_map_mid. rewrite <- app_assoc. reflexivity.
Qed.
Lemma swap_self (l : list pnode) i : i < length l -> swap (map Some l) i i = OK (map Some l).
Proof.
  intros L. unfold swap, aget. destruct (nth_error (map Some l) i) as [v|] eqn:Q; [|apply nth_error_None in Q; rewrite map_length in Q; lia]. cbn [bind]. rewrite aset_replace by (rewrite map_length; exact L). cbn [bind]. rewrite aset_replace by (rewrite replace_length, map_length; exact L). rewrite replace_twice, (replace_same _ _ _ Q). reflexivity.
Qed.
Lemma exec_at_mid (a : list pnode) n b : exec_at (map Some (a ++ n :: b)) (length a) = OK (p_exec n).
Proof. unfold exec_at, aget. rewrite nth_map_mid. reflexivity. Qed.
Lemma part_loop_ok A B pv : forall R G L i1 j, i1 = length A + length G -> j = i1 + length L -> (forall n, In n G -> pv < p_exec n)%Z -> (forall n, In n L -> p_exec n <= pv)%Z ->
  exists G' L', part_loop (map Some (A ++ G ++ L ++ R ++ B)) pv i1 j (length R) = OK (map Some (A ++ G' ++ L' ++ B), length A + length G') /\ Permutation (G ++ L ++ R) (G' ++ L') /\
    (forall n, In n G' -> pv < p_exec n)%Z /\ (forall n, In n L' -> p_exec n <= pv)%Z.
Proof.
  induction R as [|r R IH]; intros G L i1 j -> -> HG HL; cbn [length part_loop].
  - exists G, L. rewrite app_nil_r. auto.
  - assert (Ej : exec_at (map Some (A ++ G ++ L ++ (r :: R) ++ B)) (length A + length G + length L) = OK (p_exec r)).
    { replace (A ++ G ++ L ++ (r :: R) ++ B) with ((A ++ G ++ L) ++ r :: R ++ B) by (rewrite <- !app_assoc; reflexivity). replace (length A + length G + length L) with (length (A ++ G ++ L)) by (rewrite !app_length; lia). apply exec_at_mid. }
    rewrite Ej. cbn [bind]. destruct (Z.ltb_spec pv (p_exec r)) as [Lt|Ge].
    + destruct L as [|l L].
      * cbn [app length]. rewrite Nat.add_0_r. rewrite swap_self by (rewrite !app_length; cbn [length]; rewrite app_length; lia). cbn [bind].
        destruct (IH (G ++ [r]) [] (S (length A + length G)) (S (length A + length G))) as (G' & L' & E & P & HG' & HL'); [rewrite app_length; cbn; lia|cbn; lia|intros n I; apply in_app_or in I as [I|[<- |[]]]; auto|exact HL|].
        exists G', L'. cbn [app] in E. rewrite <- app_assoc in E. cbn [app] in E. split; [exact E|]. split; [|auto]. cbn [app] in P. rewrite <- app_assoc in P. exact P.
      * replace (A ++ G ++ (l :: L) ++ (r :: R) ++ B) with ((A ++ G) ++ l :: L ++ r :: (R ++ B)) by (rewrite <- !app_assoc; reflexivity).
        rewrite swap_ok by (rewrite ?app_length; cbn [length]; lia). cbn [bind].
        destruct (IH (G ++ [r]) (L ++ [l]) (S (length A + length G)) (S (length A + length G + length (l :: L)))) as (G' & L' & E & P & HG' & HL'); [rewrite app_length; cbn; lia|rewrite app_length; cbn; lia|intros n I; apply in_app_or in I as [I|[<- |[]]]; auto|intros n I; apply in_app_or in I as [I|[<- |[]]]; apply HL; [right; exact I|left; reflexivity]|].
        exists G', L'. split; [|split; [|auto]].
        -- rewrite <- E. replace ((A ++ G) ++ r :: L ++ l :: R ++ B) with (A ++ (G ++ [r]) ++ (L ++ [l]) ++ R ++ B) by (rewrite <- !app_assoc; reflexivity). reflexivity.
        -- eapply Permutation_trans; [|exact P]. rewrite <- !app_assoc. apply Permutation_app_head. cbn [app]. change (l :: L ++ r :: R) with ((l :: L) ++ r :: R). rewrite <- Permutation_middle. constructor. cbn [app]. apply Permutation_middle.
    + replace (A ++ G ++ L ++ (r :: R) ++ B) with (A ++ G ++ (L ++ [r]) ++ R ++ B) by (rewrite <- !app_assoc; reflexivity).
      destruct (IH G (L ++ [r]) (length A + length G) (S (length A + length G + length L))) as (G' & L' & E & P & HG' & HL'); [lia|rewrite app_length; cbn; lia|exact HG|intros n I; apply in_app_or in I as [I|[<- |[]]]; auto|].
      exists G', L'. split; [exact E|]. split; [|auto]. rewrite <- app_assoc in P. exact P.
Qed.
Lemma partition_ok A M p B low high : low = length A -> high = length A + length M ->
  exists G L, partition (map Some (A ++ (M ++ [p]) ++ B)) low high = OK (map Some (A ++ (G ++ [p] ++ L) ++ B), length A + length G) /\ Permutation (M ++ [p]) (G ++ [p] ++ L) /\
    (forall n, In n G -> p_exec p < p_exec n)%Z /\ (forall n, In n L -> p_exec n <= p_exec p)%Z.
Proof.
  intros -> ->. unfold partition.
  assert (Ep : exec_at (map Some (A ++ (M ++ [p]) ++ B)) (length A + length M) = OK (p_exec p)).
  { replace (A ++ (M ++ [p]) ++ B) with ((A ++ M) ++ p :: B) by (rewrite <- !app_assoc; reflexivity). replace (length A + length M) with (length (A ++ M)) by (rewrite app_length; lia). apply exec_at_mid. }
  rewrite Ep. cbn [bind]. replace (length A + length M - length A) with (length M) by lia.
  destruct (part_loop_ok A (p :: B) (p_exec p) M [] [] (length A) (length A)) as (G & L & E & P & HG & HL); [cbn; lia|cbn; lia|intros ? []|intros ? []|].
  cbn [app] in E, P. replace (A ++ (M ++ [p]) ++ B) with (A ++ M ++ p :: B) by (rewrite <- !app_assoc; reflexivity). rewrite E. cbn [bind].
  assert (LM : length M = length G + length L) by (apply Permutation_length in P; rewrite app_length in P; exact P).
  destruct L as [|l L].
  - exists G, []. replace (length A + length M) with (length A + length G) by (cbn in LM; lia). rewrite swap_self by (rewrite !app_length; cbn [length app]; lia). cbn [bind app]. split; [rewrite <- !app_assoc; reflexivity|]. split; [rewrite app_nil_r in P; apply Permutation_app_tail; exact P|auto].
  - exists G, (L ++ [l]). replace (A ++ G ++ (l :: L) ++ p :: B) with ((A ++ G) ++ l :: L ++ p :: B) by (rewrite <- !app_assoc; reflexivity).
    rewrite swap_ok by (rewrite ?app_length; cbn [length] in LM |- *; lia). cbn [bind]. split; [rewrite <- !app_assoc; reflexivity|]. split; [|split; [exact HG|intros n I; apply in_app_or in I as [I|[<- |[]]]; apply HL; [right; exact I|left; reflexivity]]].
    rewrite P. rewrite <- app_assoc. apply Permutation_app_head. eapply Permutation_trans; [apply Permutation_sym, Permutation_cons_append|]. cbn [app]. constructor. apply Permutation_cons_append.
Qed.

(** ** Sorting *)
Lemma desc_app a b : descending a -> descending b -> (forall x y, In x a -> In y b -> (y <= x)%Z) -> descending (a ++ b).
Proof.
  induction 1 as [|x l Hx D IH]; intros Db H; [exact Db|]. cbn [app]. constructor; [|apply IH; [exact Db|intros; apply H; [right|]; assumption]]. intros y I. apply in_app_or in I as [I|I]; [apply Hx; exact I|apply H; [left; reflexivity|exact I]].
Qed.
Lemma perm_in_map {A B} (g : A -> B) l l' x : Permutation l l' -> In x (map g l') -> In x (map g l).
Proof. intros P I. apply in_map_iff in I as (y & <- & I). apply in_map. apply (Permutation_in _ (Permutation_sym P)). exact I. Qed.
Lemma NoDup_perm {A} (l l' : list A) : Permutation l l' -> NoDup l -> NoDup l'.
Proof. apply Permutation_NoDup. Qed.

Lemma quick_sort_ok : forall fuel h b A M B f fp, nth_error h b = Some (Some (map Some (A ++ M ++ B))) -> A ++ M ++ B <> [] -> nreps h (A ++ M ++ B) f fp -> NoDup (b :: fp) ->
  length M + 1 + 2 * (length (flat [] f) - length f) <= fuel ->
  exists h' M' f' fp', quick_sort fuel h b (Z.of_nat (length A)) (Z.of_nat (length A) + Z.of_nat (length M) - 1) = OK h' /\ length h' = length h /\
    nth_error h' b = Some (Some (map Some (A ++ M' ++ B))) /\ Permutation M M' /\ descending (map p_exec M') /\ nreps h' (A ++ M' ++ B) f' fp' /\ Permutation fp fp' /\
    (forall p, Permutation (flat p f) (flat p f')) /\ (forall c, ~ In c (b :: fp) -> nth_error h' c = nth_error h c).
Proof.
  induction fuel as [|fuel IH]; intros h b A M B f fp Hb NE R ND Fu; [lia|]. cbn [quick_sort].
  set (low := Z.of_nat (length A)). set (high := (low + Z.of_nat (length M) - 1)%Z).
  (* the sort of this level *)
  assert (Sort : exists h1 M1 f1 fp1, (if (low <? high)%Z then do a <- block h b; do ' (a, pi) <- partition a (Z.to_nat low) (Z.to_nat high); do h <- put h b a; do h <- quick_sort fuel h b low (Z.of_nat pi - 1); quick_sort fuel h b (Z.of_nat pi + 1) high else OK h) = OK h1 /\ length h1 = length h /\
    nth_error h1 b = Some (Some (map Some (A ++ M1 ++ B))) /\ Permutation M M1 /\ descending (map p_exec M1) /\ nreps h1 (A ++ M1 ++ B) f1 fp1 /\ Permutation fp fp1 /\
    (forall p, Permutation (flat p f) (flat p f1)) /\ (forall c, ~ In c (b :: fp) -> nth_error h1 c = nth_error h c)).
  { destruct (Z.ltb_spec low high) as [Lt|Ge].
    - destruct (exists_last (l := M)) as (M0 & p & EM); [intros ->; unfold high in Lt; cbn [length] in Lt; lia|]. subst M. assert (Hh : high = (low + Z.of_nat (length M0))%Z) by (unfold high; rewrite app_length; cbn [length]; lia). clearbody high.
      assert (LM : 0 < length M0) by lia.
      rewrite (block_ok _ _ _ Hb). cbn [bind].
      destruct (partition_ok A M0 p B (Z.to_nat low) (Z.to_nat high)) as (G & L & Ep & P & HG & HL); [unfold low; lia|rewrite Hh; unfold low; lia|]. rewrite Ep. cbn [bind].
      unfold put. rewrite (block_ok _ _ _ Hb). cbn [bind]. assert (Lb : b < length h) by (eapply nth_len; eauto). rewrite aset_replace by exact Lb. cbn [bind].
      set (h0 := replace h b (Some (map Some (A ++ (G ++ [p] ++ L) ++ B)))).
      assert (P0 : Permutation (A ++ (M0 ++ [p]) ++ B) (A ++ (G ++ [p] ++ L) ++ B)) by (apply Permutation_app_head; apply Permutation_app_tail; exact P).
      destruct (nreps_perm _ _ _ P0 _ _ R) as (f0 & fp0 & R0 & Pf & Pe).
      assert (Nb : ~ In b fp) by (inversion ND; assumption).
      assert (R0' : nreps h0 (A ++ (G ++ [p] ++ L) ++ B) f0 fp0). { apply (nreps_frame _ _ _ _ _ R0). intros c I. apply nth_replace_neq. intros ->. apply Nb. apply (Permutation_in _ (Permutation_sym Pf)). exact I. }
      assert (LP : length M0 = length G + length L). { apply Permutation_length in P. rewrite !app_length in P. cbn in P. lia. }
      assert (Lf0 : length f0 = length f) by (symmetry; apply Permutation_length; exact Pe).
      assert (Lfl : length (flat [] f0) = length (flat [] f)) by (symmetry; apply Permutation_length; apply flat_perm; exact Pe).
      rewrite !app_length in Fu. cbn [length] in Fu.
      assert (ND0 : NoDup (b :: fp0)) by (apply (NoDup_perm (b :: fp)); [constructor; exact Pf|exact ND]).
      destruct (IH h0 b A G ([p] ++ L ++ B) f0 fp0) as (h1 & G1 & f1 & fp1 & E1 & L1 & Hb1 & PG & DG & R1 & Pf1 & Pl1 & Fr1).
      { unfold h0. rewrite (nth_replace_eq _ _ _ Lb). rewrite <- !app_assoc. reflexivity. } { destruct A, G; discriminate. } { rewrite <- !app_assoc in R0'. exact R0'. } { exact ND0. } { lia. }
      replace (Z.of_nat (length A + length G) - 1)%Z with (Z.of_nat (length A) + Z.of_nat (length G) - 1)%Z by lia. fold low in E1. fold low. rewrite E1. cbn [bind].
      assert (ND1 : NoDup (b :: fp1)) by (apply (NoDup_perm (b :: fp0)); [constructor; exact Pf1|exact ND0]).
      assert (Lfl1 : length (flat [] f1) = length (flat [] f)) by (rewrite <- Lfl; symmetry; apply Permutation_length; apply Pl1).
      assert (Lf1 : length f1 = length f). { rewrite (nreps_length _ _ _ _ R1), (nreps_length _ _ _ _ R). apply Permutation_length in PG. rewrite !app_length. cbn [length]. lia. }
      assert (LG1 : length G1 = length G) by (symmetry; apply Permutation_length; exact PG).
      destruct (IH h1 b (A ++ G1 ++ [p]) L B f1 fp1) as (h2 & L2 & f2 & fp2 & E2 & Ln2 & Hb2 & PL & DL & R2 & Pf2 & Pl2 & Fr2).
      { rewrite Hb1. rewrite <- !app_assoc. reflexivity. } { destruct A, G1; discriminate. } { rewrite <- !app_assoc. exact R1. } { exact ND1. } { lia. }
      replace (Z.of_nat (length A + length G) + 1)%Z with (Z.of_nat (length (A ++ G1 ++ [p]))) by (rewrite !app_length; cbn [length]; lia).
      replace high with (Z.of_nat (length (A ++ G1 ++ [p])) + Z.of_nat (length L) - 1)%Z by (rewrite Hh; unfold low; rewrite !app_length; cbn [length]; lia).
      exists h2, (G1 ++ [p] ++ L2), f2, fp2. split; [exact E2|]. split; [rewrite Ln2, L1; apply replace_length|]. split; [rewrite Hb2; rewrite <- !app_assoc; reflexivity|].
      split; [rewrite P; apply Permutation_app; [exact PG|]; apply Permutation_app_head; exact PL|]. split; [|split; [|split; [|split]]].
      + rewrite !map_app. cbn [map]. apply desc_app; [exact DG|constructor; [|exact DL]|].
        * intros y I. apply (perm_in_map _ _ _ _ PL) in I. apply in_map_iff in I as (n & <- & I). auto.
        * intros x y Ix Iy. apply (perm_in_map _ _ _ _ PG) in Ix. apply in_map_iff in Ix as (n & <- & Ix). specialize (HG _ Ix). destruct Iy as [<- |Iy]; [lia|]. apply (perm_in_map _ _ _ _ PL) in Iy. apply in_map_iff in Iy as (m & <- & Iy). specialize (HL _ Iy). lia.
      + rewrite <- !app_assoc in R2 |- *. exact R2.
      + rewrite Pf, Pf1. exact Pf2.
      + intros q. rewrite (flat_perm q _ _ Pe), (Pl1 q). apply Pl2.
      + intros c Nc. assert (Nc0 : ~ In c (b :: fp0)). { intros [<- |I]; [apply Nc; left; reflexivity|]. apply Nc. right. apply (Permutation_in _ (Permutation_sym Pf)). exact I. }
        rewrite Fr2; [rewrite Fr1 by exact Nc0|].
        * apply nth_replace_neq. intros ->. apply Nc. left. reflexivity.
        * intros [<- |I]; [apply Nc; left; reflexivity|]. apply Nc0. right. apply (Permutation_in _ (Permutation_sym Pf1)). exact I.
    - exists h, M, f, fp. split; [reflexivity|]. split; [reflexivity|]. split; [exact Hb|]. split; [reflexivity|]. split; [|auto]. assert (length M <= 1) by (unfold high in Ge; lia). destruct M as [|m [|]]; [constructor|repeat constructor; intros ? []|cbn in *; lia]. }
  destruct Sort as (h1 & M1 & f1 & fp1 & E1 & L1 & Hb1 & PM & DM & R1 & Pf1 & Pl1 & Fr1).
  match goal with |- context [bind ?m _] => lazymatch m with (if _ then _ else _) => replace m with (OK h1) by (symmetry; exact E1) end end. cbn [bind]. clear E1.
  assert (NE1 : A ++ M1 ++ B <> []). { intros E. apply NE. apply app_eq_nil in E as (-> & E). apply app_eq_nil in E as (-> & ->). apply Permutation_sym, Permutation_nil in PM. subst. reflexivity. }
  destruct (A ++ M1 ++ B) as [|n0 rest] eqn:Ens; [congruence|]. assert (Hn0 : nth_error (map Some (n0 :: rest)) 0 = Some (Some n0)) by reflexivity.
  rewrite (node_ok _ _ _ _ _ Hb1 Hn0). cbn [bind]. destruct (nreps_cons_inv _ _ _ _ _ R1) as (s & fr & fps & fpr & -> & -> & Pr0 & RS & RR). destruct (reps_inv _ _ _ _ _ RS) as [(Ea & Em & -> & ->)|(bs & nss & fpss & Ea & Em & -> & Hbs & NEs & Rs)]; rewrite Em, ?Ea.
  - cbn [Nat.eqb]. exists h1, M1, (Entry (p_name n0) (p_exec n0) [] :: fr), fpr. rewrite Ens. cbn [app] in Pf1, R1. repeat split; auto.
  - destruct (Nat.eqb_spec (length nss) 0) as [E0|N0]; [destruct nss; [congruence|discriminate]|].
    assert (ND1 : NoDup (b :: (bs :: fpss) ++ fpr)) by (apply (NoDup_perm (b :: fp)); [constructor; exact Pf1|exact ND]). inversion ND1 as [|? ? Nb ND2]; subst.
    assert (Lf1 : length (Entry (p_name n0) (p_exec n0) s :: fr) = length f) by (rewrite (nreps_length _ _ _ _ R1), (nreps_length _ _ _ _ R), <- Ens; rewrite !app_length; apply Permutation_length in PM; lia).
    assert (Lfl1 : length (flat [] (Entry (p_name n0) (p_exec n0) s :: fr)) = length (flat [] f)) by (symmetry; apply Permutation_length; apply Pl1).
    rewrite flat_cons, app_length in Lfl1. cbn [length] in Lfl1, Lf1. rewrite (flat_len _ [] s) in Lfl1. pose proof (flat_ge [] fr). pose proof (flat_ge [] s).
    assert (Ls : length s = length nss) by (eapply nreps_length; eauto).
    destruct (IH h1 bs [] nss [] s fpss) as (h2 & M2 & f2 & fp2 & E2 & L2 & Hb2 & PM2 & DM2 & R2 & Pf2 & Pl2 & Fr2).
    { cbn [app]. rewrite app_nil_r. assumption. } { cbn [app]. rewrite app_nil_r. assumption. } { cbn [app]. rewrite app_nil_r. assumption. } { eapply NoDup_app_l; eauto. } { lia. }
    cbn [length] in E2. change (Z.of_nat 0) with 0%Z in E2. rewrite Z.add_0_l in E2. rewrite E2. cbn [app] in *. rewrite app_nil_r in *.
    assert (Out : forall c, ~ In c (bs :: fpss) -> nth_error h2 c = nth_error h1 c) by exact Fr2.
    exists h2, M1, (Entry (p_name n0) (p_exec n0) f2 :: fr), ((bs :: fp2) ++ fpr). split; [reflexivity|]. split; [lia|]. split; [rewrite Out; [rewrite Hb1, Ens; reflexivity|]|].
    { intros I. apply Nb. change (bs :: fpss ++ fpr) with ((bs :: fpss) ++ fpr). apply in_or_app. left. exact I. }
    split; [exact PM|]. split; [exact DM|]. rewrite Ens. split; [|split; [|split]].
    + constructor; [assumption| |].
      * rewrite Ea, Em. replace (length nss) with (length M2) by (symmetry; apply Permutation_length; exact PM2). constructor; [exact Hb2|intros ->; apply Permutation_sym, Permutation_nil in PM2; subst; congruence|exact R2].
      * apply (nreps_frame _ _ _ _ _ RR). intros c I. apply Out. intros I2. apply (NoDup_app_disj (bs :: fpss) fpr c ND2 I2 I).
    + rewrite Pf1. cbn [app]. constructor. apply Permutation_app_tail. exact Pf2.
    + intros q. rewrite (Pl1 q), !flat_cons. apply Permutation_app_tail. constructor. apply Pl2.
    + intros c Nc. rewrite Out; [apply Fr1; exact Nc|]. intros I. apply Nc. right. apply (Permutation_in _ (Permutation_sym Pf1)). change (bs :: fpss ++ fpr) with ((bs :: fpss) ++ fpr). apply in_or_app. left. exact I.
Qed.
