(** * Invariants of the handle pool *)
From Coq Require Import Permutation.
From Verif Require Import CBase CBaseFacts MultiModel MultiSpec.

Lemma upd_eq {A} (f : nat -> A) k v : upd f k v k = v.
Proof. unfold upd. rewrite Nat.eqb_refl. reflexivity. Qed.
Lemma upd_ne {A} (f : nat -> A) k v x : x <> k -> upd f k v x = f x.
Proof. intros H. unfold upd. apply Nat.eqb_neq in H. rewrite H. reflexivity. Qed.
Lemma set_nth_length {A} (l : list A) i v : length (set_nth l i v) = length l.
Proof. revert i. induction l as [|x l IH]; destruct i; cbn; auto. Qed.
Lemma set_nth_eq {A} (l : list A) i v : i < length l -> nth_error (set_nth l i v) i = Some v.
Proof. revert i. induction l as [|x l IH]; destruct i; cbn; intros; try lia; auto. apply IH. lia. Qed.
Lemma set_nth_ne {A} (l : list A) i j v : i <> j -> nth_error (set_nth l i v) j = nth_error l j.
Proof. revert i j. induction l as [|x l IH]; destruct i, j; cbn; intros; try lia; auto. Qed.
Lemma set_nth_last {A} (l : list A) x v : set_nth (l ++ [x]) (length (l ++ [x]) - 1) v = l ++ [v].
Proof. rewrite app_length. cbn. replace (length l + 1 - 1) with (length l) by lia. induction l as [|y l IH]; cbn; congruence. Qed.
Lemma nth_last {A} (l : list A) x : nth_error (l ++ [x]) (length (l ++ [x]) - 1) = Some x.
Proof. rewrite app_length. cbn. replace (length l + 1 - 1) with (length l) by lia. rewrite nth_error_app2 by lia. rewrite Nat.sub_diag. reflexivity. Qed.
Lemma set_nth_cases {A} (l : list A) i v j h : nth_error (set_nth l i v) j = Some h -> (j = i /\ h = v) \/ (j <> i /\ nth_error l j = Some h).
Proof.
  intros H. destruct (Nat.eq_dec j i) as [->|N].
  - left. split; auto. assert (i < length l) by (rewrite <- (set_nth_length l i v); eapply nth_error_Some_lt; eauto). rewrite set_nth_eq in H by auto. congruence.
  - right. split; auto. rewrite set_nth_ne in H; auto.
Qed.

Definition idx (x : nat * nat * nat) : nat := snd (fst x).
Definition crit (p : pc) : bool := match p with Idle | AWait | RWait _ => false | _ => true end.
Definition acquires (p : pc) (i : nat) : Prop :=
  match p with AReopen j | AUnlock j | AGot j _ => i = j | _ => False end.
Definition scanned (hs : list handle) (i : nat) : Prop :=
  forall j h, j < i -> nth_error hs j = Some h -> h_owner h <> None \/ h_file h = None.
Definition local (hs : list handle) (used : list nat) (t : nat) (p : pc) : Prop :=
  match p with
  | AScan i => scanned hs i
  | AReopen i | AUnlock i => nth_error hs i = Some {| h_file := None; h_owner := Some t |} /\ ~ In i used /\ scanned hs i
  | AGot i f => nth_error hs i = Some {| h_file := Some f; h_owner := Some t |} /\ ~ In i used
  | AGrow => scanned hs (length hs)
  | AOpen => exists hs0, hs = hs0 ++ [{| h_file := None; h_owner := None |}] /\ scanned hs0 (length hs0)
  | ALock f => exists hs0, hs = hs0 ++ [{| h_file := Some f; h_owner := None |}]
  | _ => True
  end.

Record Inv (s : state) (ret : list (nat * nat * nat)) : Prop := {
  I_lock : forall t, crit (s_pc s t) = true <-> s_lock s = Some t;
  I_sess : forall t i f, In (t, i, f) (s_held s ++ ret) -> nth_error (s_handles s) i = Some {| h_file := Some f; h_owner := Some t |};
  I_nodup : NoDup (map idx (s_held s ++ ret));
  I_ret : forall t i, (s_pc s t = RWait i \/ s_pc s t = RUnlock i) <-> exists f, In (t, i, f) ret;
  I_local : forall t, local (s_handles s) (map idx (s_held s ++ ret)) t (s_pc s t);
  I_own : forall i h o, nth_error (s_handles s) i = Some h -> h_owner h = Some o ->
    In i (map idx (s_held s ++ ret)) \/ exists t, s_lock s = Some t /\ acquires (s_pc s t) i;
  I_file : forall i j hi hj f, nth_error (s_handles s) i = Some hi -> nth_error (s_handles s) j = Some hj ->
    h_file hi = Some f -> h_file hj = Some f -> i = j;
  I_next : forall i h f, nth_error (s_handles s) i = Some h -> h_file h = Some f -> f < s_next s
}.

Lemma inv_init : Inv init [].
Proof.
  constructor; cbn; try (intros; contradiction).
  - intros t. split; discriminate.
  - constructor.
  - intros t i. split; [intros [H|H]; discriminate|intros (f & [])].
  - intros t. exact I.
  - intros i h o H. destruct i; discriminate.
  - intros i j hi hj f H. destruct i; discriminate.
  - intros i h f H. destruct i; discriminate.
Qed.

Lemma in_remove_held x y l : In y (remove_held x l) -> In y l.
Proof.
  induction l as [|z l IH]; cbn; auto. destruct x as [[t i] f], z as [[t' i'] f'].
  destruct ((t =? t') && (i =? i') && (f =? f')); cbn; intuition.
Qed.
Lemma remove_held_perm x l : In x l -> Permutation l (x :: remove_held x l).
Proof.
  induction l as [|z l IH]; cbn; [tauto|]. intros H. destruct x as [[t i] f], z as [[t' i'] f'].
  destruct ((t =? t') && (i =? i') && (f =? f')) eqn:E.
  - apply andb_true_iff in E as (E & E3). apply andb_true_iff in E as (E1 & E2). apply Nat.eqb_eq in E1, E2, E3. subst. reflexivity.
  - destruct H as [H|H].
    + injection H as -> -> ->. rewrite !Nat.eqb_refl in E. discriminate.
    + rewrite perm_swap. constructor. auto.
Qed.
Lemma used_perm s ret x : In x (s_held s) -> Permutation (s_held s ++ ret) (remove_held x (s_held s) ++ x :: ret).
Proof.
  intros H. rewrite (remove_held_perm x (s_held s) H) at 1. cbn. rewrite Permutation_middle. reflexivity.
Qed.

Lemma not_used s ret i h : Inv s ret -> nth_error (s_handles s) i = Some h -> h_owner h = None \/ h_file h = None -> ~ In i (map idx (s_held s ++ ret)).
Proof.
  intros J N E H. apply in_map_iff in H as ([[t j] f] & Q & H). cbn in Q. subst j.
  rewrite (I_sess _ _ J _ _ _ H) in N. injection N as <-. destruct E; discriminate.
Qed.
Lemma sess_used s ret t i f : In (t, i, f) (s_held s ++ ret) -> In i (map idx (s_held s ++ ret)).
Proof. intros H. apply (in_map idx) in H. exact H. Qed.
Lemma other_noncrit s ret t t' : Inv s ret -> crit (s_pc s t) = true -> t' <> t -> crit (s_pc s t') = false.
Proof.
  intros J C N. apply (I_lock _ _ J) in C. destruct (crit (s_pc s t')) eqn:E; auto. apply (I_lock _ _ J) in E. congruence.
Qed.
Lemma noncrit_local hs used t p : crit p = false -> local hs used t p.
Proof. destruct p; cbn; try discriminate; auto. Qed.
Lemma scanned_set hs i j v : scanned hs i -> i <= j -> scanned (set_nth hs j v) i.
Proof. intros H L k h K N. rewrite set_nth_ne in N by lia. eapply H; eauto. Qed.
Lemma local_incl hs u u' t p : (forall i, In i u' -> In i u) -> local hs u t p -> local hs u' t p.
Proof. intros H. destruct p; cbn; intuition. Qed.

(** A step of the thread that has the lock, which keeps the lock and the sessions. *)
Lemma inv_crit s ret t p' s' : Inv s ret -> crit (s_pc s t) = true -> crit p' = true ->
  s_lock s' = s_lock s -> s_held s' = s_held s -> s_pc s' = upd (s_pc s) t p' -> s_next s <= s_next s' ->
  (forall i, s_pc s t <> RUnlock i) -> (forall i, p' <> RUnlock i) ->
  (forall i h, In i (map idx (s_held s ++ ret)) -> nth_error (s_handles s) i = Some h -> nth_error (s_handles s') i = Some h) ->
  local (s_handles s') (map idx (s_held s ++ ret)) t p' ->
  (forall i h o, nth_error (s_handles s') i = Some h -> h_owner h = Some o -> In i (map idx (s_held s ++ ret)) \/ acquires p' i) ->
  (forall i h f, nth_error (s_handles s') i = Some h -> h_file h = Some f ->
    (exists h0, nth_error (s_handles s) i = Some h0 /\ h_file h0 = Some f) \/ (s_next s = f /\ s_next s' = S f /\ forall j h', nth_error (s_handles s') j = Some h' -> h_file h' = Some f -> j = i)) ->
  Inv s' ret.
Proof.
  intros J C C' EL EH EP EN R R' F Lo Ow Fi. constructor; rewrite ?EL, ?EH, ?EP.
  - intros t'. destruct (Nat.eq_dec t' t) as [->|N].
    + rewrite upd_eq, C'. apply (I_lock _ _ J) in C. tauto.
    + rewrite upd_ne by auto. apply (I_lock _ _ J).
  - intros t' i f H. apply F; [eapply sess_used; eauto|]. eapply I_sess; eauto.
  - eapply I_nodup; eauto.
  - intros t' i. rewrite <- (I_ret _ _ J t' i). destruct (Nat.eq_dec t' t) as [->|N].
    + rewrite upd_eq. specialize (R i). specialize (R' i).
      split; intros [H|H]; exfalso; try (rewrite H in C; discriminate); try (rewrite H in C'; discriminate); tauto.
    + rewrite upd_ne by auto. tauto.
  - intros t'. destruct (Nat.eq_dec t' t) as [->|N].
    + rewrite upd_eq. exact Lo.
    + rewrite upd_ne by auto. apply noncrit_local. eapply other_noncrit; eauto.
  - intros i h o H O. destruct (Ow _ _ _ H O) as [A|A]; [left; exact A|right]. exists t. rewrite upd_eq. split; auto. apply (I_lock _ _ J). exact C.
  - intros i j hi hj f Hi Hj Fi1 Fj1.
    destruct (Fi _ _ _ Hi Fi1) as [(a & A1 & A2)|(A & _ & A2)].
    + destruct (Fi _ _ _ Hj Fj1) as [(b & B1 & B2)|(B & _ & B2)]; [eapply I_file; [eassumption|exact A1|exact B1|exact A2|exact B2]|].
      eapply B2; eauto.
    + symmetry. eapply A2; eauto.
  - intros i h f H Q. destruct (Fi _ _ _ H Q) as [(a & A1 & A2)|(A & B & _)]; [|lia]. pose proof (I_next _ _ J _ _ _ A1 A2). lia.
Qed.

(** 1 while a return has unlocked its entry and still has the lock. *)
Definition done (s : state) : nat :=
  match s_lock s with Some t => match s_pc s t with RDone => 1 | _ => 0 end | None => 0 end.
Definition gives (o : option event) : nat := match o with Some (ECallReturn _ _ _) => 1 | _ => 0 end.
Definition gave (o : option event) : nat := match o with Some (EReturned _) => 1 | _ => 0 end.
Ltac cnt :=
  match goal with J : Inv ?s _, H : s_pc ?s ?t = _ |- _ => unfold done; cbn [gives gave s_lock s_pc set_pc set_lock set_handles set_held set_pos new_file length]; try reflexivity;
    first [ rewrite (proj1 (I_lock _ _ J t) ltac:(rewrite H; reflexivity)); cbn; rewrite ?upd_eq, ?H; cbn; lia
          | let E := fresh in destruct (s_lock s) as [u|] eqn:E; [destruct (Nat.eq_dec u t); [subst; apply (I_lock _ _ J) in E; rewrite H in E; discriminate|rewrite ?upd_ne by auto]|]; try discriminate; cbn; rewrite ?upd_eq; lia
          | match goal with E : s_lock _ = None |- _ => rewrite E, upd_eq; cbn; lia end ] end.

Lemma inv_step content s ret o s' : Inv s ret -> step content s o s' -> exists ret', Inv s' ret' /\ length ret' + done s' + gave o = length ret + done s + gives o.
Proof.
  intros J St. inversion St; subst; clear St.
  - (* call access *)
    exists ret. split; [|cnt]. constructor; cbn; try apply J.
    + intros t'. destruct (Nat.eq_dec t' t) as [->|N]; [rewrite upd_eq; rewrite <- (I_lock _ _ J t), H; cbn; tauto|rewrite upd_ne by auto; apply J].
    + intros t' i. rewrite <- (I_ret _ _ J t' i). destruct (Nat.eq_dec t' t) as [->|N]; [rewrite upd_eq, H; intuition discriminate|rewrite upd_ne by auto; tauto].
    + intros t'. destruct (Nat.eq_dec t' t) as [->|N]; [rewrite upd_eq; exact I|rewrite upd_ne by auto; apply J].
    + intros i h o A B. destruct (I_own _ _ J i h o A B) as [|(t' & L & Q)]; auto. right. exists t'. split; auto.
      destruct (Nat.eq_dec t' t) as [->|N]; [rewrite H in Q; contradiction|rewrite upd_ne by auto; exact Q].
  - (* access lock *)
    exists ret. split; [|cnt].
    assert (Nc : forall t', crit (s_pc s t') = false). { intros t'. destruct (crit (s_pc s t')) eqn:E; auto. apply (I_lock _ _ J) in E. congruence. }
    constructor; cbn; try apply J.
    + intros t'. destruct (Nat.eq_dec t' t) as [->|N]; [rewrite upd_eq; cbn; tauto|]. rewrite upd_ne, Nc by auto. split; congruence.
    + intros t' i. rewrite <- (I_ret _ _ J t' i). destruct (Nat.eq_dec t' t) as [->|N]; [rewrite upd_eq, H; intuition discriminate|rewrite upd_ne by auto; tauto].
    + intros t'. destruct (Nat.eq_dec t' t) as [->|N]; [rewrite upd_eq; cbn; intros j h K; lia|rewrite upd_ne by auto; apply J].
    + intros i h o A B. destruct (I_own _ _ J i h o A B) as [|(t' & L & Q)]; auto. congruence.
  - (* scan end *)
    exists ret. split; [|cnt]. eapply (inv_crit s ret t AGrow); try exact J; cbn; rewrite ?H; auto; try discriminate.
    + pose proof (I_local _ _ J t) as L. rewrite H in L. intros j h K N. eapply L; eauto. lia.
    + intros k h o A B. destruct (I_own _ _ J k h o A B) as [|(t' & L & Q)]; auto.
      assert (t' = t) by (assert (s_lock s = Some t) by (apply (I_lock _ _ J); rewrite H; reflexivity); congruence). subst. rewrite H in Q. auto.
    + intros k h f A B. left. eauto.
  - (* scan busy *)
    exists ret. split; [|cnt]. eapply (inv_crit s ret t (AScan (S i))); try exact J; cbn; rewrite ?H; auto; try discriminate.
    + pose proof (I_local _ _ J t) as L. rewrite H in L. intros j h' K N. assert (j < i \/ j = i) as [K'|K'] by lia; [eapply L; eauto|]. subst. left. congruence.
    + intros k h' o' A B. destruct (I_own _ _ J k h' o' A B) as [|(t' & L & Q)]; auto.
      assert (t' = t) by (assert (s_lock s = Some t) by (apply (I_lock _ _ J); rewrite H; reflexivity); congruence). subst. rewrite H in Q. auto.
    + intros k h' f A B. left. eauto.
  - (* scan free *)
    exists ret. split; [|cnt]. pose proof (not_used _ _ _ _ J H0 (or_introl eq_refl)) as Nu.
    eapply (inv_crit s ret t (AGot i f)); try exact J; cbn; rewrite ?H; auto; try discriminate.
    + intros k h K N. rewrite set_nth_ne; auto. intros ->. auto.
    + split; auto. apply set_nth_eq. eapply nth_error_Some_lt; eauto.
    + intros k h o A B. destruct (set_nth_cases _ _ _ _ _ A) as [(-> & ->)|(Q & A')]; auto.
      destruct (I_own _ _ J k h o A' B) as [|(t' & L & Q')]; auto.
      assert (t' = t) by (assert (s_lock s = Some t) by (apply (I_lock _ _ J); rewrite H; reflexivity); congruence). subst. rewrite H in Q'. contradiction.
    + intros k h f' A B. left. destruct (set_nth_cases _ _ _ _ _ A) as [(-> & ->)|(Q & A')]; eauto.
  - (* scan null *)
    exists ret. split; [|cnt]. pose proof (not_used _ _ _ _ J H0 (or_introl eq_refl)) as Nu.
    eapply (inv_crit s ret t (AReopen i)); try exact J; cbn; rewrite ?H; auto; try discriminate.
    + intros k h K N. rewrite set_nth_ne; auto. intros ->. auto.
    + split; [apply set_nth_eq; eapply nth_error_Some_lt; eauto|split; auto]. apply scanned_set; auto. pose proof (I_local _ _ J t) as L. rewrite H in L. exact L.
    + intros k h o A B. destruct (set_nth_cases _ _ _ _ _ A) as [(-> & ->)|(Q & A')]; auto.
      destruct (I_own _ _ J k h o A' B) as [|(t' & L & Q')]; auto.
      assert (t' = t) by (assert (s_lock s = Some t) by (apply (I_lock _ _ J); rewrite H; reflexivity); congruence). subst. rewrite H in Q'. contradiction.
    + intros k h f' A B. left. destruct (set_nth_cases _ _ _ _ _ A) as [(-> & ->)|(Q & A')]; eauto.
  - (* reopen ok *)
    pose proof (I_local _ _ J t) as L. rewrite H in L. destruct L as (L1 & L2 & L3).
    exists ret. split; [|cnt]. eapply (inv_crit s ret t (AGot i (s_next s))); try exact J; cbn; rewrite ?H; auto; try discriminate.
    + intros k h K N. rewrite set_nth_ne; auto. intros ->. auto.
    + split; auto. apply set_nth_eq. eapply nth_error_Some_lt; eauto.
    + intros k h o A B. destruct (set_nth_cases _ _ _ _ _ A) as [(-> & ->)|(Q & A')]; auto.
      destruct (I_own _ _ J k h o A' B) as [|(t' & L & Q')]; auto.
      assert (t' = t) by (assert (s_lock s = Some t) by (apply (I_lock _ _ J); rewrite H; reflexivity); congruence). subst. rewrite H in Q'. auto.
    + intros k h f' A B. destruct (set_nth_cases _ _ _ _ _ A) as [(-> & ->)|(Q & A')]; eauto. cbn in B. injection B as <-. right. repeat split.
      intros j h' A2 B2. destruct (set_nth_cases _ _ _ _ _ A2) as [(-> & ->)|(Q2 & A2')]; auto. pose proof (I_next _ _ J _ _ _ A2' B2). lia.
  - (* reopen fail *)
    pose proof (I_local _ _ J t) as L. rewrite H in L. destruct L as (L1 & L2 & L3).
    exists ret. split; [|cnt]. eapply (inv_crit s ret t (AUnlock i)); try exact J; cbn; rewrite ?H; auto; try discriminate.
    + intros k h o A B. destruct (I_own _ _ J k h o A B) as [|(t' & L & Q')]; auto.
      assert (t' = t) by (assert (s_lock s = Some t) by (apply (I_lock _ _ J); rewrite H; reflexivity); congruence). subst. rewrite H in Q'. auto.
    + intros k h f' A B. left. eauto.
  - (* unlock entry *)
    pose proof (I_local _ _ J t) as L. rewrite H in L. destruct L as (L1 & L2 & L3).
    exists ret. split; [|cnt]. eapply (inv_crit s ret t (AScan (S i))); try exact J; cbn; rewrite ?H; auto; try discriminate.
    + intros k h K N. rewrite set_nth_ne; auto. intros ->. auto.
    + intros j h K N. destruct (set_nth_cases _ _ _ _ _ N) as [(-> & ->)|(Q & N')]; auto. eapply L3; eauto. lia.
    + intros k h o A B. destruct (set_nth_cases _ _ _ _ _ A) as [(-> & ->)|(Q & A')]; [discriminate|].
      destruct (I_own _ _ J k h o A' B) as [|(t' & L & Q')]; auto.
      assert (t' = t) by (assert (s_lock s = Some t) by (apply (I_lock _ _ J); rewrite H; reflexivity); congruence). subst. rewrite H in Q'. cbn in Q'. auto.
    + intros k h f' A B. left. destruct (set_nth_cases _ _ _ _ _ A) as [(-> & ->)|(Q & A')]; [discriminate|eauto].
  - (* got *)
    pose proof (I_local _ _ J t) as L. rewrite H in L. destruct L as (L1 & L2).
    assert (Lk : s_lock s = Some t) by (apply (I_lock _ _ J); rewrite H; reflexivity).
    assert (C : crit (s_pc s t) = true) by (rewrite H; reflexivity).
    exists ret. split; [|cnt]. constructor; cbn; try apply J.
    + intros t'. destruct (Nat.eq_dec t' t) as [->|N]; [rewrite upd_eq; cbn; split; discriminate|]. rewrite upd_ne by auto. rewrite (other_noncrit _ _ _ _ J C N). split; discriminate.
    + intros t' i' f' [Q|Q]; [injection Q as <- <- <-; exact L1|]. eapply I_sess; eauto.
    + constructor; [exact L2|apply J].
    + intros t' i'. rewrite <- (I_ret _ _ J t' i'). destruct (Nat.eq_dec t' t) as [->|N]; [rewrite upd_eq, H; intuition discriminate|rewrite upd_ne by auto; tauto].
    + intros t'. destruct (Nat.eq_dec t' t) as [->|N]; [rewrite upd_eq; exact I|rewrite upd_ne by auto; apply noncrit_local; eapply other_noncrit; eauto].
    + intros k h o A B. left. destruct (I_own _ _ J k h o A B) as [|(t' & L & Q')]; auto.
      assert (t' = t) by congruence. subst. rewrite H in Q'. cbn in Q'. auto.
  - (* grow *)
    exists ret. split; [|cnt]. eapply (inv_crit s ret t AOpen); try exact J; cbn; rewrite ?H; auto; try discriminate.
    + intros k h K N. rewrite nth_error_app1; auto. eapply nth_error_Some_lt; eauto.
    + exists (s_handles s). split; auto. pose proof (I_local _ _ J t) as L. rewrite H in L. exact L.
    + intros k h o A B. assert (k < length (s_handles s) \/ length (s_handles s) <= k) as [K|K] by lia.
      * rewrite nth_error_app1 in A by auto. destruct (I_own _ _ J k h o A B) as [|(t' & L & Q')]; auto.
        assert (t' = t) by (assert (s_lock s = Some t) by (apply (I_lock _ _ J); rewrite H; reflexivity); congruence). subst. rewrite H in Q'. auto.
      * rewrite nth_error_app2 in A by auto. destruct (k - length (s_handles s)) as [|[|]]; cbn in A; try discriminate. injection A as <-. discriminate.
    + intros k h f A B. left. assert (k < length (s_handles s) \/ length (s_handles s) <= k) as [K|K] by lia.
      * rewrite nth_error_app1 in A by auto. eauto.
      * rewrite nth_error_app2 in A by auto. destruct (k - length (s_handles s)) as [|[|]]; cbn in A; try discriminate. injection A as <-. discriminate.
  - (* open ok *)
    pose proof (I_local _ _ J t) as L. rewrite H in L. destruct L as (hs0 & L & _).
    assert (Nu : ~ In (length (s_handles s) - 1) (map idx (s_held s ++ ret))). { eapply not_used; [exact J|rewrite L; apply nth_last|auto]. }
    exists ret. split; [|cnt]. eapply (inv_crit s ret t (ALock (s_next s))); try exact J; cbn; rewrite ?H; auto; try discriminate.
    + intros k h K N. rewrite set_nth_ne; auto. intros <-. auto.
    + exists hs0. rewrite L. apply set_nth_last.
    + intros k h o A B. destruct (set_nth_cases _ _ _ _ _ A) as [(-> & ->)|(Q & A')]; [discriminate|].
      destruct (I_own _ _ J k h o A' B) as [|(t' & L' & Q')]; auto.
      assert (t' = t) by (assert (s_lock s = Some t) by (apply (I_lock _ _ J); rewrite H; reflexivity); congruence). subst. rewrite H in Q'. auto.
    + intros k h f' A B. destruct (set_nth_cases _ _ _ _ _ A) as [(-> & ->)|(Q & A')]; eauto. cbn in B. injection B as <-. right. repeat split.
      intros j h' A2 B2. destruct (set_nth_cases _ _ _ _ _ A2) as [(-> & ->)|(Q2 & A2')]; auto. pose proof (I_next _ _ J _ _ _ A2' B2). lia.
  - (* open fail *)
    exists ret. split; [|cnt]. eapply (inv_crit s ret t AFail); try exact J; cbn; rewrite ?H; auto; try discriminate.
    + intros k h o A B. destruct (I_own _ _ J k h o A B) as [|(t' & L & Q')]; auto.
      assert (t' = t) by (assert (s_lock s = Some t) by (apply (I_lock _ _ J); rewrite H; reflexivity); congruence). subst. rewrite H in Q'. auto.
    + intros k h f' A B. left. eauto.
  - (* access fail *)
    assert (Lk : s_lock s = Some t) by (apply (I_lock _ _ J); rewrite H; reflexivity).
    assert (C : crit (s_pc s t) = true) by (rewrite H; reflexivity).
    exists ret. split; [|cnt]. constructor; cbn; try apply J.
    + intros t'. destruct (Nat.eq_dec t' t) as [->|N]; [rewrite upd_eq; cbn; split; discriminate|]. rewrite upd_ne by auto. rewrite (other_noncrit _ _ _ _ J C N). split; discriminate.
    + intros t' i'. rewrite <- (I_ret _ _ J t' i'). destruct (Nat.eq_dec t' t) as [->|N]; [rewrite upd_eq, H; intuition discriminate|rewrite upd_ne by auto; tauto].
    + intros t'. destruct (Nat.eq_dec t' t) as [->|N]; [rewrite upd_eq; exact I|rewrite upd_ne by auto; apply noncrit_local; eapply other_noncrit; eauto].
    + intros k h o A B. left. destruct (I_own _ _ J k h o A B) as [|(t' & L & Q')]; auto.
      assert (t' = t) by congruence. subst. rewrite H in Q'. contradiction.
  - (* lock new *)
    pose proof (I_local _ _ J t) as L. rewrite H in L. destruct L as (hs0 & L).
    assert (Nu : ~ In (length (s_handles s) - 1) (map idx (s_held s ++ ret))). { eapply not_used; [exact J|rewrite L; apply nth_last|auto]. }
    exists ret. split; [|cnt]. eapply (inv_crit s ret t (AGot (length (s_handles s) - 1) f)); try exact J; cbn; rewrite ?H; auto; try discriminate.
    + intros k h K N. rewrite set_nth_ne; auto. intros <-. auto.
    + split; auto. apply set_nth_eq. eapply nth_error_Some_lt; eauto.
    + intros k h o A B. destruct (set_nth_cases _ _ _ _ _ A) as [(-> & ->)|(Q & A')]; auto.
      destruct (I_own _ _ J k h o A' B) as [|(t' & L' & Q')]; auto.
      assert (t' = t) by (assert (s_lock s = Some t) by (apply (I_lock _ _ J); rewrite H; reflexivity); congruence). subst. rewrite H in Q'. contradiction.
    + intros k h f' A B. left. destruct (set_nth_cases _ _ _ _ _ A) as [(-> & ->)|(Q & A')]; eauto.
  - (* seek *) exists ret. split; [|cnt]. destruct J; constructor; cbn; auto.
  - exists ret. split; [|cnt]. exact J.
  - exists ret. split; [|cnt]. exact J.
  - exists ret. split; [|cnt]. destruct J; constructor; cbn; auto.
  - (* call return *)
    pose proof (used_perm s ret (t, i, f) H0) as P.
    assert (Nl : s_lock s <> Some t) by (rewrite <- (I_lock _ _ J t), H; discriminate).
    exists ((t, i, f) :: ret). split; [|cnt]. constructor; cbn; try apply J.
    + intros t'. destruct (Nat.eq_dec t' t) as [->|N]; [rewrite upd_eq; cbn; split; [discriminate|congruence]|rewrite upd_ne by auto; apply J].
    + intros t' i' f' Q. apply (I_sess _ _ J). eapply Permutation_in; [symmetry; exact P|exact Q].
    + eapply Permutation_NoDup; [apply Permutation_map; exact P|apply J].
    + intros t' i'. destruct (Nat.eq_dec t' t) as [->|N].
      * rewrite upd_eq. split.
        { intros [Q|Q]; [injection Q as <-; exists f; left; reflexivity|discriminate]. }
        { intros (f' & [Q|Q]); [injection Q as <- _; left; reflexivity|]. exfalso. assert (A : exists f, In (t, i', f) ret) by eauto. apply (I_ret _ _ J) in A. rewrite H in A. destruct A; discriminate. }
      * rewrite upd_ne by auto. rewrite (I_ret _ _ J t' i'). split; [intros (f' & Q); exists f'; right; exact Q|intros (f' & [Q|Q]); [injection Q as -> _ _; contradiction|eauto]].
    + intros t'. destruct (Nat.eq_dec t' t) as [->|N]; [rewrite upd_eq; exact I|rewrite upd_ne by auto].
      eapply local_incl; [|apply (I_local _ _ J)]. intros k K. eapply Permutation_in; [apply Permutation_map; symmetry; exact P|exact K].
    + intros k h o A B. destruct (I_own _ _ J k h o A B) as [Q|(t' & L & Q)].
      * left. eapply Permutation_in; [apply Permutation_map; exact P|exact Q].
      * right. exists t'. split; auto. rewrite upd_ne; auto. intros ->. contradiction.
  - (* return lock *)
    assert (Nc : forall t', crit (s_pc s t') = false). { intros t'. destruct (crit (s_pc s t')) eqn:E; auto. apply (I_lock _ _ J) in E. congruence. }
    exists ret. split; [|cnt]. constructor; cbn; try apply J.
    + intros t'. destruct (Nat.eq_dec t' t) as [->|N]; [rewrite upd_eq; cbn; tauto|]. rewrite upd_ne, Nc by auto. split; congruence.
    + intros t' i'. rewrite <- (I_ret _ _ J t' i'). destruct (Nat.eq_dec t' t) as [->|N]; [rewrite upd_eq, H|rewrite upd_ne by auto; tauto].
      split; intros [Q|Q]; try discriminate; injection Q as <-; auto.
    + intros t'. destruct (Nat.eq_dec t' t) as [->|N]; [rewrite upd_eq; exact I|rewrite upd_ne by auto; apply J].
    + intros k h o A B. destruct (I_own _ _ J k h o A B) as [|(t' & L & Q)]; auto. congruence.
  - (* return unlock *)
    assert (Lk : s_lock s = Some t) by (apply (I_lock _ _ J); rewrite H; reflexivity).
    assert (C : crit (s_pc s t) = true) by (rewrite H; reflexivity).
    assert (A : exists f, In (t, i, f) ret) by (apply (I_ret _ _ J); auto). destruct A as (f & A).
    pose proof (remove_held_perm _ _ A) as P.
    assert (P' : Permutation (s_held s ++ ret) ((t, i, f) :: s_held s ++ remove_held (t, i, f) ret)).
    { rewrite P at 1. rewrite <- Permutation_middle. reflexivity. }
    pose proof (Permutation_NoDup (Permutation_map idx P') (I_nodup _ _ J)) as Nd. cbn in Nd. inversion Nd as [|? ? Nd1 Nd2]; subst.
    assert (Sub : forall x, In x (s_held s ++ remove_held (t, i, f) ret) -> In x (s_held s ++ ret)).
    { intros x X. eapply Permutation_in; [symmetry; exact P'|right; exact X]. }
    exists (remove_held (t, i, f) ret). split; [|apply Permutation_length in P; cbn in P; cnt]. constructor; cbn; try apply J; auto.
    + intros t'. destruct (Nat.eq_dec t' t) as [->|N]; [rewrite upd_eq; cbn; tauto|]. rewrite upd_ne by auto. apply J.
    + intros t' i' f' Q. pose proof (I_sess _ _ J _ _ _ (Sub _ Q)). rewrite set_nth_ne; auto. intros ->. apply Nd1. apply (in_map idx) in Q. exact Q.
    + intros t' i'. destruct (Nat.eq_dec t' t) as [->|N].
      * rewrite upd_eq. split; [intros [Q|Q]; discriminate|]. intros (f' & Q). exfalso.
        assert (B : exists f, In (t, i', f) ret) by (exists f'; eapply in_remove_held; eauto). apply (I_ret _ _ J) in B. rewrite H in B. destruct B as [B|B]; [discriminate|]. injection B as <-.
        apply Nd1. apply in_map_iff. exists (t, i, f'). split; auto. apply in_or_app. auto.
      * rewrite upd_ne by auto. rewrite (I_ret _ _ J t' i'). split; intros (f' & Q); exists f'; [|eapply in_remove_held; eauto].
        apply (Permutation_in _ P) in Q. destruct Q as [Q|Q]; auto. injection Q as <- _ _. contradiction.
    + intros t'. destruct (Nat.eq_dec t' t) as [->|N]; [rewrite upd_eq; exact I|rewrite upd_ne by auto; apply noncrit_local; eapply other_noncrit; eauto].
    + intros k h' o K B. left. destruct (set_nth_cases _ _ _ _ _ K) as [(-> & ->)|(Q & K')]; [discriminate|].
      destruct (I_own _ _ J k h' o K' B) as [U|(t' & L & U)]; [|replace t' with t in U by congruence; rewrite H in U; contradiction].
      apply (Permutation_in _ (Permutation_map idx P')) in U. destruct U as [U|U]; auto. cbn in U. congruence.
    + intros a b ha hb f' Ha Hb Fa Fb.
      destruct (set_nth_cases _ _ _ _ _ Ha) as [(-> & ->)|(Qa & Ha')]; destruct (set_nth_cases _ _ _ _ _ Hb) as [(-> & ->)|(Qb & Hb')]; auto; eapply I_file; eauto.
    + intros k h' f' K B. destruct (set_nth_cases _ _ _ _ _ K) as [(-> & ->)|(Q & K')]; eapply I_next; eauto.
  - (* return done *)
    assert (Lk : s_lock s = Some t) by (apply (I_lock _ _ J); rewrite H; reflexivity).
    assert (C : crit (s_pc s t) = true) by (rewrite H; reflexivity).
    exists ret. split; [|cnt]. constructor; cbn; try apply J.
    + intros t'. destruct (Nat.eq_dec t' t) as [->|N]; [rewrite upd_eq; cbn; split; discriminate|]. rewrite upd_ne by auto. rewrite (other_noncrit _ _ _ _ J C N). split; discriminate.
    + intros t' i'. rewrite <- (I_ret _ _ J t' i'). destruct (Nat.eq_dec t' t) as [->|N]; [rewrite upd_eq, H; intuition discriminate|rewrite upd_ne by auto; tauto].
    + intros t'. destruct (Nat.eq_dec t' t) as [->|N]; [rewrite upd_eq; exact I|rewrite upd_ne by auto; apply noncrit_local; eapply other_noncrit; eauto].
    + intros k h o A B. left. destruct (I_own _ _ J k h o A B) as [|(t' & L & Q')]; auto.
      assert (t' = t) by congruence. subst. rewrite H in Q'. contradiction.
Qed.

(** ** Counting *)
Lemma count_app p a b : count p (a ++ b) = count p a + count p b.
Proof. induction a; cbn; lia. Qed.
Definition isnull (h : handle) : nat := match h_file h with None => 1 | _ => 0 end.
Fixpoint nulls (hs : list handle) : nat := match hs with [] => 0 | h :: r => isnull h + nulls r end.
Lemma nulls_app a b : nulls (a ++ b) = nulls a + nulls b.
Proof. induction a; cbn; lia. Qed.
Lemma nulls_set hs i h v : nth_error hs i = Some h -> nulls (set_nth hs i v) + isnull h = nulls hs + isnull v.
Proof. revert i. induction hs as [|x r IH]; destruct i; cbn; intros E; try discriminate; [injection E as ->; lia|]. specialize (IH _ E). lia. Qed.
Lemma pigeon_aux hs : forall k used, (forall j h, nth_error hs j = Some h -> In (k + j) used \/ h_file h = None) ->
  length hs <= length (filter (fun x => k <=? x) used) + nulls hs.
Proof.
  induction hs as [|h r IH]; intros k used H; cbn; [lia|].
  assert (A : length r <= length (filter (fun x => S k <=? x) used) + nulls r).
  { apply IH. intros j h' N. replace (S k + j) with (k + S j) by lia. apply H. exact N. }
  assert (M : length (filter (fun x => S k <=? x) used) + (if existsb (Nat.eqb k) used then 1 else 0) <= length (filter (fun x => k <=? x) used)).
  { clear. induction used as [|x u IH]; cbn [existsb filter length]; [lia|].
    destruct (Nat.eqb_spec k x) as [->|N].
    - replace (x <=? x) with true by (symmetry; apply Nat.leb_refl). replace (S x <=? x) with false by (symmetry; apply Nat.leb_gt; lia). cbn [orb length]. destruct (existsb (Nat.eqb x) u); lia.
    - cbn [orb]. destruct (Nat.leb_spec (S k) x), (Nat.leb_spec k x); try lia; cbn [length]; lia. }
  destruct (H 0 h eq_refl) as [Q|Q].
  - rewrite Nat.add_0_r in Q. replace (existsb (Nat.eqb k) used) with true in M by (symmetry; apply existsb_exists; exists k; split; auto; apply Nat.eqb_refl). lia.
  - unfold isnull. rewrite Q. lia.
Qed.
Lemma pigeon hs used : (forall j h, nth_error hs j = Some h -> In j used \/ h_file h = None) -> length hs <= length used + nulls hs.
Proof.
  intros H. pose proof (pigeon_aux hs 0 used H) as A.
  replace (filter (fun x => 0 <=? x) used) with used in A; auto. clear. induction used as [|x u IH]; [reflexivity|]. cbn [filter Nat.leb]. f_equal. exact IH.
Qed.

Definition is_opening (p : pc) : nat := match p with AOpen => 1 | _ => 0 end.
Definition opening (s : state) : nat := match s_lock s with Some t => is_opening (s_pc s t) | None => 0 end.
Definition midpc (p : pc) : Prop := match p with AOpen | ALock _ | AGot _ _ => True | _ => False end.

Record Cnt (tr : list event) (s : state) (ret : list (nat * nat * nat)) : Prop := {
  T_count : count is_access tr = count is_returned tr + length (s_held s) + length ret + done s;
  T_null : nulls (s_handles s) <= open_failures tr + opening s;
  T_bound : forall n, concurrency_at_most n tr -> length (s_handles s) <= n + open_failures tr \/
    (exists t, s_lock s = Some t /\ midpc (s_pc s t)) /\ length (s_handles s) <= in_use tr + open_failures tr + 1
}.

Lemma in_use_app tr o : in_use (tr ++ emit o) = count is_access tr + count is_access (emit o) - (count is_returned tr + count is_returned (emit o)).
Proof. unfold in_use. rewrite !count_app. reflexivity. Qed.
Lemma concurrency_app n tr o : concurrency_at_most n (tr ++ o) -> concurrency_at_most n tr /\ in_use (tr ++ o) <= n.
Proof.
  intros H. split.
  - intros k. destruct (Nat.le_gt_cases k (length tr)) as [K|K].
    + specialize (H k). rewrite firstn_app in H. replace (k - length tr) with 0 in H by lia. cbn in H. rewrite app_nil_r in H. exact H.
    + specialize (H (length tr)). rewrite firstn_app, Nat.sub_diag in H. cbn in H. rewrite app_nil_r in H. rewrite firstn_all2 by lia. rewrite firstn_all2 in H by lia. exact H.
  - specialize (H (length (tr ++ o))). rewrite firstn_all in H. exact H.
Qed.
Lemma remove_held_length x l : In x l -> S (length (remove_held x l)) = length l.
Proof. intros H. pose proof (Permutation_length (remove_held_perm x l H)). cbn in *. lia. Qed.

Lemma opening_crit s ret t : Inv s ret -> crit (s_pc s t) = true -> opening s = is_opening (s_pc s t).
Proof. intros J C. unfold opening. rewrite (proj1 (I_lock _ _ J t) C). reflexivity. Qed.

Lemma scanned_all s ret t : Inv s ret -> s_pc s t = AGrow -> length (s_handles s) <= length (s_held s) + length ret + nulls (s_handles s).
Proof.
  intros J H. pose proof (I_local _ _ J t) as L. rewrite H in L.
  rewrite <- app_length, <- (map_length idx). apply pigeon. intros j h N.
  destruct (h_file h) eqn:Q; [|auto]. left.
  destruct (L j h) as [A|A]; [eapply nth_error_Some_lt; eauto|exact N| |congruence].
  destruct (h_owner h) as [o|] eqn:O; [|congruence]. destruct (I_own _ _ J _ _ _ N O) as [|(u & U & V)]; auto.
  assert (u = t) by (assert (s_lock s = Some t) by (apply (I_lock _ _ J); rewrite H; reflexivity); congruence). subst. rewrite H in V. contradiction.
Qed.

Lemma cnt_step content tr s ret o s' ret' : Inv s ret -> Inv s' ret' -> Cnt tr s ret -> step content s o s' ->
  length ret' + done s' + gave o = length ret + done s + gives o -> Cnt (tr ++ emit o) s' ret'.
Proof.
  intros J J' T St G.
  assert (E : count is_access (tr ++ emit o) = count is_returned (tr ++ emit o) + length (s_held s') + length ret' + done s').
  { rewrite !count_app. pose proof (T_count _ _ _ T) as A.
    inversion St; subst; cbn in G |- *; try lia.
    pose proof (remove_held_length _ _ H0). lia. }
  constructor; [exact E| |].
  - pose proof (T_null _ _ _ T) as A. unfold open_failures in *. rewrite count_app.
    inversion St; subst; cbn [emit count is_open_fail]; try (rewrite (opening_crit _ _ t J) in A by (rewrite H; reflexivity); rewrite H in A; cbn in A).
    all: try match goal with |- context[opening (set_pc ?x ?t ?p)] =>
      first [ rewrite (opening_crit _ _ t J') by (cbn; rewrite upd_eq; reflexivity); cbn; rewrite upd_eq; cbn
            | idtac ] end.
    all: try (unfold opening in *; cbn in *; lia).
    all: try (pose proof (I_local _ _ J t) as L; rewrite H in L; cbn in L).
    + unfold opening in *. cbn. destruct (s_lock s) as [u|]; [|lia]. unfold upd. destruct (u =? t) eqn:Q; [|lia]. apply Nat.eqb_eq in Q. subst. rewrite H in A. cbn in *. lia.
    + unfold opening in A. rewrite H0 in A. lia.
    + pose proof (nulls_set _ _ _ {| h_file := Some f; h_owner := Some t |} H0) as B. cbn in B. lia.
    + pose proof (nulls_set _ _ _ {| h_file := None; h_owner := Some t |} H0) as B. cbn in B. lia.
    + destruct L as (L & _). pose proof (nulls_set _ _ _ {| h_file := Some (s_next s); h_owner := Some t |} L) as B. cbn in B. lia.
    + destruct L as (L & _). pose proof (nulls_set _ _ _ {| h_file := None; h_owner := None |} L) as B. cbn in B. lia.
    + rewrite nulls_app. cbn. lia.
    + destruct L as (hs0 & L & _). rewrite L, set_nth_last. rewrite L in A. rewrite nulls_app in *. cbn in *. lia.
    + pose proof (nulls_set _ _ _ {| h_file := Some f; h_owner := Some t |} H0) as B. cbn in B. lia.
    + unfold opening in *. cbn. destruct (s_lock s) as [u|]; [|lia]. unfold upd. destruct (u =? t) eqn:Q; [|lia]. apply Nat.eqb_eq in Q. subst. rewrite H in A. cbn in *. lia.
    + unfold opening in A. rewrite H0 in A. lia.
    + pose proof (nulls_set _ _ _ {| h_file := h_file h; h_owner := None |} H0) as B. unfold isnull in B. cbn in B. lia.
  - intros n C. destruct (concurrency_app _ _ _ C) as (C1 & C2). pose proof (T_bound _ _ _ T n C1) as B.
    pose proof (T_null _ _ _ T) as Nl. pose proof (T_count _ _ _ T) as Ct.
    unfold in_use in *. rewrite E in *. rewrite Ct in *. unfold open_failures in *. rewrite !count_app in *.
    assert (Same : length (s_handles s') = length (s_handles s) -> count is_open_fail (emit o) = 0 ->
      (forall t, s_lock s = Some t -> midpc (s_pc s t) -> s_lock s' = Some t /\ midpc (s_pc s' t) /\ gave o = 0 /\ gives o = 0 /\ length (s_held s') = length (s_held s) \/
        s_lock s' = Some t /\ midpc (s_pc s' t) /\ gave o = 0 /\ gives o = 1 /\ S (length (s_held s')) = length (s_held s)) ->
      length (s_handles s') <= n + (count is_open_fail tr + count is_open_fail (emit o)) \/
      (exists t, s_lock s' = Some t /\ midpc (s_pc s' t)) /\
      length (s_handles s') <= count is_returned tr + count is_returned (emit o) + length (s_held s') + length ret' + done s' - (count is_returned tr + count is_returned (emit o)) + (count is_open_fail tr + count is_open_fail (emit o)) + 1).
    { intros S1 S2 S3. rewrite S1, S2. destruct B as [B|((t & B1 & B2) & B3)]; [left; lia|]. right.
      destruct (S3 t B1 B2) as [(A1 & A2 & A3 & A4 & A5)|(A1 & A2 & A3 & A4 & A5)]; (split; [eauto|]); rewrite A3, A4 in G; lia. }
    assert (Crit : forall t, crit (s_pc s t) = true -> ~ midpc (s_pc s t) -> length (s_handles s) <= n + count is_open_fail tr).
    { intros t Cr Nm. destruct B as [B|((u & B1 & B2) & B3)]; [lia|]. apply (I_lock _ _ J) in Cr. replace u with t in B2 by congruence. contradiction. }
    inversion St; subst; cbn [emit count is_open_fail is_returned is_access] in *.
    all: try (left; cbn; rewrite ?set_nth_length; specialize (Crit t ltac:(rewrite H; reflexivity) ltac:(rewrite H; tauto)); lia).
    all: try (apply Same; cbn; rewrite ?set_nth_length; auto; intros u Lu Mu; left; repeat split; auto; fail).
    + apply Same; cbn; auto. intros u Lu Mu. left. repeat split; auto. rewrite upd_ne; auto. intros ->. rewrite H in Mu. contradiction.
    + left. cbn. destruct B as [B|((u & B1 & B2) & B3)]; [lia|congruence].
    + (* got *) cbn in *. pose proof (I_lock _ _ J t) as Lt. rewrite H in Lt. cbn in Lt.
      left. destruct B as [B|(_ & B)]; lia.
    + (* grow *)
      right. cbn. pose proof (scanned_all _ _ _ J H). rewrite (opening_crit _ _ t J) in Nl by (rewrite H; reflexivity). rewrite H in Nl. cbn in Nl.
      split; [exists t; split; [apply (I_lock _ _ J); rewrite H; reflexivity|rewrite upd_eq; exact I]|]. rewrite app_length. cbn in *. lia.
    + (* open ok *)
      apply Same; cbn; rewrite ?set_nth_length; auto. intros u Lu Mu. left. repeat split; auto. assert (u = t) by (assert (s_lock s = Some t) by (apply (I_lock _ _ J); rewrite H; reflexivity); congruence). subst. rewrite upd_eq. exact I.
    + (* open fail *)
      left. cbn in *. destruct B as [B|(_ & B)]; lia.
    + (* lock new *)
      apply Same; cbn; rewrite ?set_nth_length; auto. intros u Lu Mu. left. repeat split; auto. assert (u = t) by (assert (s_lock s = Some t) by (apply (I_lock _ _ J); rewrite H; reflexivity); congruence). subst. rewrite upd_eq. exact I.
    + (* call return *)
      apply Same; cbn; auto. intros u Lu Mu. right. repeat split; auto; [|apply remove_held_length; auto]. rewrite upd_ne; auto. intros ->. rewrite H in Mu. contradiction.
    + left. cbn. destruct B as [B|((u & B1 & B2) & B3)]; [lia|congruence].
Qed.

(** ** The trace *)
Definition tf (x : nat * nat * nat) : nat * nat := (fst (fst x), snd x).
Record Trc (content : list Z) (tr : list event) (s : state) : Prop := {
  V_owned : owned tr = map tf (s_held s);
  V_view : forall t f p, view (Z.of_nat (length content)) t f tr = Some p ->
    (exists i, In (t, i, f) (s_held s)) /\ s_pos s f = p;
  V_opened : opened tr = seq 0 (s_next s);
  V_handles : forall f, f < s_next s -> exists i h, nth_error (s_handles s) i = Some h /\ h_file h = Some f
}.

Lemma owned_app tr o : owned (tr ++ emit o) = match o with Some e => owned_step (owned tr) e | None => owned tr end.
Proof. unfold owned. rewrite fold_left_app. destruct o; reflexivity. Qed.
Lemma view_app z t f tr o : view z t f (tr ++ emit o) = match o with Some e => view_step z t f (view z t f tr) e | None => view z t f tr end.
Proof. unfold view. rewrite fold_left_app. destruct o; reflexivity. Qed.
Lemma opened_app a b : opened (a ++ b) = opened a ++ opened b.
Proof. induction a as [|e a IH]; cbn; auto. destruct e; cbn; rewrite ?IH; auto. Qed.

Lemma same_file s ret t t' i i' f : Inv s ret -> In (t, i, f) (s_held s) -> In (t', i', f) (s_held s) -> t = t' /\ i = i'.
Proof.
  intros J A B.
  pose proof (I_sess _ _ J _ _ _ (in_or_app _ ret _ (or_introl A))) as P. pose proof (I_sess _ _ J _ _ _ (in_or_app _ ret _ (or_introl B))) as Q.
  pose proof (I_file _ _ J _ _ _ _ f P Q eq_refl eq_refl). subst. split; congruence.
Qed.
Lemma drop_remove s ret t i f : Inv s ret -> In (t, i, f) (s_held s) -> drop (t, f) (map tf (s_held s)) = map tf (remove_held (t, i, f) (s_held s)).
Proof.
  intros J H. assert (U : forall t' i', In (t', i', f) (s_held s) -> t' = t /\ i' = i) by (intros t' i' Q; eapply same_file; eauto).
  clear J. induction (s_held s) as [|[[t' i'] f'] l IH]; [contradiction|]. cbn.
  destruct ((t =? t') && (i =? i') && (f =? f')) eqn:E.
  - apply andb_true_iff in E as (E & E3). apply andb_true_iff in E as (E1 & E2). rewrite E1, E3. reflexivity.
  - destruct ((t =? t') && (f =? f')) eqn:E'.
    + apply andb_true_iff in E' as (E1 & E3). apply Nat.eqb_eq in E1, E3. subst. destruct (U t' i') as (_ & ->); [left; reflexivity|]. rewrite !Nat.eqb_refl in E. discriminate.
    + cbn. f_equal. apply IH; [|intros; apply U; right; auto]. destruct H as [H|H]; auto. injection H as -> -> ->. rewrite !Nat.eqb_refl in E. discriminate.
Qed.
Lemma in_remove_other x y l : In y l -> y <> x -> In y (remove_held x l).
Proof.
  induction l as [|z l IH]; cbn; [tauto|]. intros H N. destruct x as [[t i] f], z as [[t' i'] f'].
  destruct ((t =? t') && (i =? i') && (f =? f')) eqn:E.
  - apply andb_true_iff in E as (E & E3). apply andb_true_iff in E as (E1 & E2). apply Nat.eqb_eq in E1, E2, E3. subst. destruct H; [congruence|auto].
  - destruct H as [H|H]; [left; auto|right; auto].
Qed.

Lemma held_next s ret t i f : Inv s ret -> In (t, i, f) (s_held s) -> f < s_next s.
Proof.
  intros J H. pose proof (I_sess _ _ J _ _ _ (in_or_app _ ret _ (or_introl H))) as P. eapply I_next; [exact J|exact P|reflexivity].
Qed.

Lemma trc_step content tr s ret o s' : Inv s ret -> Trc content tr s -> step content s o s' -> Trc content (tr ++ emit o) s'.
Proof.
  intros J T St. constructor.
  - rewrite owned_app. pose proof (V_owned _ _ _ T) as A. inversion St; subst; cbn in *; rewrite ?A; auto. eapply drop_remove; eauto.
  - intros t f p. rewrite view_app. pose proof (V_view _ _ _ T t f) as A.
    inversion St; subst; cbn [s_held s_pos set_pc set_lock set_handles set_held set_pos new_file view_step]; auto.
    + intros V. destruct (A _ V) as ((j & Q) & P). split; eauto. rewrite upd_ne; auto. intros ->. pose proof (held_next _ _ _ _ _ J Q). lia.
    + destruct ((t0 =? t) && (f0 =? f)) eqn:E; [discriminate|]. intros V. destruct (A _ V) as ((j & Q) & P). split; auto. exists j. right. exact Q.
    + intros V. destruct (A _ V) as ((j & Q) & P). split; eauto. rewrite upd_ne; auto. intros ->. pose proof (held_next _ _ _ _ _ J Q). lia.
    + destruct ((t0 =? t) && (f0 =? f)) eqn:E.
      * apply andb_true_iff in E as (E1 & E2). apply Nat.eqb_eq in E1, E2. subst. rewrite upd_eq.
        destruct w; cbn [seek_target].
        -- intros V. injection V as <-. split; eauto.
        -- destruct (view (Z.of_nat (length content)) t f tr) as [q|]; [|discriminate]. intros V. injection V as <-. destruct (A _ eq_refl) as (B & <-). split; eauto.
        -- intros V. injection V as <-. split; eauto.
      * intros V. destruct (A _ V) as ((j & Q) & P). split; eauto. rewrite upd_ne; auto. intros ->. destruct (same_file _ _ _ _ _ _ _ J H0 Q) as (-> & ->). rewrite !Nat.eqb_refl in E. discriminate.
    + destruct ((t0 =? t) && (f0 =? f)) eqn:E.
      * apply andb_true_iff in E as (E1 & E2). apply Nat.eqb_eq in E1, E2. subst. rewrite upd_eq.
        destruct (view (Z.of_nat (length content)) t f tr) as [q|]; [|discriminate]. intros V. injection V as <-. destruct (A _ eq_refl) as (B & <-). split; eauto.
      * intros V. destruct (A _ V) as ((j & Q) & P). split; eauto. rewrite upd_ne; auto. intros ->. destruct (same_file _ _ _ _ _ _ _ J H0 Q) as (-> & ->). rewrite !Nat.eqb_refl in E. discriminate.
    + destruct ((t0 =? t) && (f0 =? f)) eqn:E; [discriminate|]. intros V. destruct (A _ V) as ((j & Q) & P). split; auto. exists j. apply in_remove_other; auto.
      intros X. injection X as -> -> ->. rewrite !Nat.eqb_refl in E. discriminate.
  - rewrite opened_app. pose proof (V_opened _ _ _ T) as A. inversion St; subst; cbn [emit opened s_next set_pc set_lock set_handles set_held set_pos new_file]; rewrite ?app_nil_r; auto; rewrite A, seq_S; reflexivity.
  - intros f Hf. pose proof (V_handles _ _ _ T) as A.
    inversion St; subst; cbn [s_next s_handles set_pc set_lock set_handles set_held set_pos new_file] in *; auto;
      pose proof (I_local _ _ J t) as L; rewrite H in L; cbn in L.
    + destruct (A f Hf) as (k & h & N & Q). destruct (Nat.eq_dec k i) as [->|Ne].
      * rewrite H0 in N. injection N as <-. exists i. eexists. split; [apply set_nth_eq; eapply nth_error_Some_lt; eauto|exact Q].
      * exists k, h. rewrite set_nth_ne by auto. auto.
    + destruct (A f Hf) as (k & h & N & Q). destruct (Nat.eq_dec k i) as [->|Ne].
      * rewrite H0 in N. injection N as <-. discriminate.
      * exists k, h. rewrite set_nth_ne by auto. auto.
    + destruct L as (L & _). destruct (Nat.eq_dec f (s_next s)) as [->|Nf].
      * exists i. eexists. split; [apply set_nth_eq; eapply nth_error_Some_lt; eauto|reflexivity].
      * destruct (A f ltac:(lia)) as (k & h & N & Q). exists k, h. rewrite set_nth_ne; auto. intros ->. rewrite L in N. injection N as <-. discriminate.
    + destruct L as (L & _). destruct (A f Hf) as (k & h & N & Q). exists k, h. rewrite set_nth_ne; auto. intros ->. rewrite L in N. injection N as <-. discriminate.
    + destruct (A f Hf) as (k & h & N & Q). exists k, h. rewrite nth_error_app1; auto. eapply nth_error_Some_lt; eauto.
    + destruct L as (hs0 & L & _). rewrite L, set_nth_last. destruct (Nat.eq_dec f (s_next s)) as [->|Nf].
      * exists (length hs0). eexists. split; [rewrite nth_error_app2, Nat.sub_diag by lia; reflexivity|reflexivity].
      * destruct (A f ltac:(lia)) as (k & h & N & Q). rewrite L in N. exists k, h. split; auto.
        assert (k < length hs0 \/ length hs0 <= k) as [K|K] by lia; [rewrite nth_error_app1 in * by auto; exact N|].
        rewrite nth_error_app2 in N by auto. destruct (k - length hs0) as [|[|]]; cbn in N; try discriminate. injection N as <-. discriminate.
    + destruct (A f Hf) as (k & h & N & Q). destruct (Nat.eq_dec k (length (s_handles s) - 1)) as [->|Ne].
      * rewrite H0 in N. injection N as <-. eexists. eexists. split; [apply set_nth_eq; eapply nth_error_Some_lt; eauto|exact Q].
      * exists k, h. rewrite set_nth_ne by auto. auto.
    + destruct (A f Hf) as (k & h' & N & Q). destruct (Nat.eq_dec k i) as [->|Ne].
      * rewrite H0 in N. injection N as <-. exists i. eexists. split; [apply set_nth_eq; eapply nth_error_Some_lt; eauto|exact Q].
      * exists k, h'. rewrite set_nth_ne by auto. auto.
Qed.

Theorem exec_inv content tr s : exec content tr s -> exists ret, Inv s ret /\ Cnt tr s ret /\ Trc content tr s.
Proof.
  induction 1 as [|tr s o s' E (ret & J & C & T) St].
  - exists []. split; [apply inv_init|]. split; constructor; cbn; auto; try lia.
    intros t f p H. discriminate.
  - destruct (inv_step _ _ _ _ _ J St) as (ret' & J' & G). exists ret'. split; [exact J'|]. split; [exact (cnt_step _ _ _ _ _ _ _ J J' C St G)|exact (trc_step _ _ _ _ _ _ J T St)].
Qed.

Lemma exec_split content tr s : exec content tr s -> forall tr1 e tr2, tr = tr1 ++ e :: tr2 ->
  exists s1 s2, exec content tr1 s1 /\ step content s1 (Some e) s2.
Proof.
  induction 1 as [|tr s o s' E IH St]; intros tr1 e tr2 Q.
  - destruct tr1; discriminate.
  - destruct o as [e'|]; [|cbn in Q; rewrite app_nil_r in Q; eauto].
    cbn in Q. destruct tr2 as [|x tr2 _] using rev_ind.
    + apply app_inj_tail in Q as (-> & <-). eauto.
    + rewrite app_comm_cons, app_assoc in Q. apply app_inj_tail in Q as (-> & _). eauto.
Qed.

Lemma owned_nodup s ret : Inv s ret -> NoDup (map snd (map tf (s_held s))).
Proof.
  intros J. assert (N : NoDup (map idx (s_held s))).
  { pose proof (I_nodup _ _ J) as N. rewrite map_app in N. clear - N. induction (map idx (s_held s)) as [|x l IH]; [constructor|]. inversion N; subst. constructor; auto. intros Q. apply H1. apply in_or_app. auto. }
  assert (U : forall t i t' i' f, In (t, i, f) (s_held s) -> In (t', i', f) (s_held s) -> i = i') by (intros; eapply same_file; eauto).
  clear J. induction (s_held s) as [|[[t i] f] l IH]; cbn; [constructor|]. inversion N as [|? ? N1 N2]; subst. constructor.
  - intros Q. apply in_map_iff in Q as ([t' f'] & Q1 & Q2). cbn in Q1. subst f'. apply in_map_iff in Q2 as ([[u j] g] & Q2 & Q3). cbn in Q2. injection Q2 as -> ->.
    apply N1. cbn. rewrite (U t i t' j f); [apply in_map_iff; exists (t', j, f); auto|left; reflexivity|right; exact Q3].
  - apply IH; auto. intros t1 i1 t2 i2 g A B. eapply (U t1 i1 t2 i2 g); right; assumption.
Qed.

Lemma nth_error_firstn_lt {A} (l : list A) n k : k < n -> nth_error (firstn n l) k = nth_error l k.
Proof. revert n k. induction l as [|x l IH]; destruct n, k; cbn; intros; try lia; auto. apply IH. lia. Qed.
Lemma nth_error_skipn_add {A} (l : list A) n k : nth_error (skipn n l) k = nth_error l (n + k).
Proof. revert n. induction l as [|x l IH]; destruct n; cbn; auto. destruct k; reflexivity. Qed.
Lemma bytes_slice content p n : slice_of content p n (bytes_at content p n).
Proof.
  unfold slice_of, bytes_at. split.
  - intros k K. rewrite firstn_length in K. rewrite nth_error_firstn_lt by lia. apply nth_error_skipn_add.
  - rewrite firstn_length, skipn_length. reflexivity.
Qed.

(** ** Closing *)
Lemma close_in hs f : In f (close_files hs) <-> exists i h, nth_error hs i = Some h /\ h_file h = Some f.
Proof.
  induction hs as [|h hs IH]; cbn.
  - split; [tauto|intros ([|i] & h & Q & _); discriminate].
  - split.
    + intros H. destruct (h_file h) as [g|] eqn:E; [destruct H as [->|H]|].
      * exists 0, h. auto.
      * apply IH in H as (i & h' & A & B). exists (S i), h'. auto.
      * apply IH in H as (i & h' & A & B). exists (S i), h'. auto.
    + intros ([|i] & h' & A & B); cbn in A.
      * injection A as ->. rewrite B. left. reflexivity.
      * assert (In f (close_files hs)) by (apply IH; eauto). destruct (h_file h); [right|]; auto.
Qed.
Lemma close_nodup hs : (forall i j hi hj f, nth_error hs i = Some hi -> nth_error hs j = Some hj -> h_file hi = Some f -> h_file hj = Some f -> i = j) -> NoDup (close_files hs).
Proof.
  induction hs as [|h hs IH]; intros H; cbn; [constructor|].
  assert (R : NoDup (close_files hs)). { apply IH. intros i j hi hj f A B C D. assert (S i = S j) by (eapply (H (S i) (S j)); eauto). lia. }
  destruct (h_file h) as [f|] eqn:E; auto. constructor; auto. intros Q. apply close_in in Q as (i & h' & A & B).
  pose proof (H 0 (S i) h h' f eq_refl A E B) as X. discriminate X.
Qed.
Lemma close_spec content tr s : exec content tr s -> NoDup (close_files (s_handles s)) /\ (forall f, In f (close_files (s_handles s)) <-> In f (opened tr)).
Proof.
  intros E. destruct (exec_inv _ _ _ E) as (ret & J & C & T). split; [apply close_nodup; apply J|].
  intros f. rewrite close_in, (V_opened _ _ _ T), in_seq. split.
  - intros (i & h & A & B). pose proof (I_next _ _ J _ _ _ A B). lia.
  - intros H. apply (V_handles _ _ _ T). lia.
Qed.

(** ** Progress *)
Definition moves (content : list Z) (t : nat) (s : state) (o : option event) (s' : state) : Prop :=
  step content s o s' /\ s_pc s' t <> s_pc s t.
(** [t], running alone, completes its call: it can always take a step until it
    is done, and whatever fopen returns it is done after finitely many steps. *)
Inductive completes (content : list Z) (t : nat) (s : state) : Prop :=
| Comp_done : s_pc s t = Idle -> completes content t s
| Comp_step : s_pc s t <> Idle -> (exists o s', moves content t s o s') -> (forall o s', moves content t s o s' -> completes content t s') -> completes content t s.

Definition work (hs : list handle) (p : pc) : nat :=
  match p with
  | Idle => 0
  | AWait => 3 * length hs + 7
  | AScan i => 3 * (length hs - i) + 6
  | AReopen i => 3 * (length hs - i) + 5
  | AUnlock i => 3 * (length hs - i) + 4
  | AGot _ _ => 1
  | AGrow => 5
  | AOpen => 4
  | AFail => 1
  | ALock _ => 3
  | RWait _ => 3
  | RUnlock _ => 2
  | RDone => 1
  end.

Lemma can_move content s ret t : Inv s ret -> s_pc s t <> Idle -> s_lock s = None \/ s_lock s = Some t -> exists o s', moves content t s o s'.
Proof.
  intros J N L. pose proof (I_local _ _ J t) as Lo. pose proof (I_lock _ _ J t) as Lk.
  assert (M : forall s' p, s_pc s' = upd (s_pc s) t p -> p <> s_pc s t -> forall o, step content s o s' -> exists o s', moves content t s o s').
  { intros s' p E Ne o St. exists o, s'. split; auto. rewrite E, upd_eq. exact Ne. }
  destruct (s_pc s t) as [| |i|i|i|i f| | | |f|i|i|] eqn:H; cbn in Lk, Lo.
  - congruence.
  - destruct L as [L|L]; [|apply Lk in L; discriminate]. eapply M; [| |apply St_access_lock; eassumption]; [reflexivity|discriminate].
  - destruct (nth_error (s_handles s) i) as [[fo ow]|] eqn:E.
    + destruct ow as [o|].
      * eapply M; [| |eapply St_scan_busy; [exact H|exact E|reflexivity]]; [reflexivity|]. intros Q. injection Q. lia.
      * destruct fo as [f|].
        -- eapply M; [| |eapply St_scan_free; [exact H|exact E]]; [reflexivity|discriminate].
        -- eapply M; [| |eapply St_scan_null; [exact H|exact E]]; [reflexivity|discriminate].
    + eapply M; [| |eapply St_scan_end; [exact H|apply nth_error_None; exact E]]; [reflexivity|discriminate].
  - eapply M; [| |eapply St_reopen_fail; exact H]; [reflexivity|discriminate].
  - eapply M; [| |eapply St_unlock_entry; exact H]; [reflexivity|discriminate].
  - eapply M; [| |eapply St_got; exact H]; [reflexivity|discriminate].
  - eapply M; [| |eapply St_grow; exact H]; [reflexivity|discriminate].
  - eapply M; [| |eapply St_open_fail; exact H]; [reflexivity|discriminate].
  - eapply M; [| |eapply St_access_fail; exact H]; [reflexivity|discriminate].
  - destruct Lo as (hs0 & Lo). eapply M; [| |eapply St_lock_new; [exact H|rewrite Lo; apply nth_last]]; [reflexivity|discriminate].
  - destruct L as [L|L]; [|apply Lk in L; discriminate]. eapply M; [| |eapply St_return_lock; eassumption]; [reflexivity|discriminate].
  - assert (A : exists f, In (t, i, f) ret) by (apply (I_ret _ _ J); auto). destruct A as (f & A).
    eapply M; [| |eapply St_return_unlock; [exact H|apply (I_sess _ _ J); apply in_or_app; right; exact A]]; [reflexivity|discriminate].
  - eapply M; [| |eapply St_return_done; exact H]; [reflexivity|discriminate].
Qed.

Lemma move_work content s ret t o s' : Inv s ret -> s_pc s t <> Idle -> moves content t s o s' ->
  work (s_handles s') (s_pc s' t) < work (s_handles s) (s_pc s t) /\ (s_pc s' t = Idle \/ s_lock s' = Some t).
Proof.
  intros J Ni (St & Ne). pose proof (I_local _ _ J t) as L.
  assert (X : forall p u, s_pc s' = upd (s_pc s) u p -> t = u /\ s_pc s' t = p).
  { intros p u E. destruct (Nat.eq_dec t u) as [->|N]; [split; auto; rewrite E; apply upd_eq|]. exfalso. rewrite E, upd_ne in Ne by auto. congruence. }
  inversion St; subst; cbn [s_pc set_pc set_lock set_handles set_held set_pos new_file] in *; try (contradiction Ne; reflexivity);
    match type of Ne with upd _ ?u ?p t <> _ => destruct (X p u eq_refl) as (<- & Q) end; rewrite Q, H in *; cbn [s_handles s_lock set_pc set_lock set_handles set_held new_file work];
    rewrite ?set_nth_length, ?app_length; try (exfalso; apply Ni; reflexivity);
    (split; [|first [left; reflexivity|right; reflexivity|right; apply (I_lock _ _ J); rewrite H; reflexivity]]).
  all: try lia.
  all: try (pose proof (nth_error_Some_lt _ _ _ H0); lia).
  cbn in L. destruct L as (L & _). pose proof (nth_error_Some_lt _ _ _ L). lia.
Qed.

Lemma completes_of content t : forall n tr s, exec content tr s -> work (s_handles s) (s_pc s t) < n ->
  s_lock s = None \/ s_lock s = Some t -> completes content t s.
Proof.
  induction n as [|n IH]; intros tr s E W L; [lia|]. destruct (exec_inv _ _ _ E) as (ret & J & _ & _).
  destruct (s_pc s t) eqn:P; [apply Comp_done; exact P|..].
  all: apply Comp_step; [congruence|apply (can_move content s ret t J); [congruence|exact L]|].
  all: intros o s' M; destruct (move_work content s ret t o s' J) as (A & B); [congruence|exact M|].
  all: destruct B as [B|B]; [apply Comp_done; exact B|]; destruct M as (St & _); (eapply (IH (tr ++ emit o)); [econstructor; eassumption|rewrite P in A; lia|right; exact B]).
Qed.

(** ** Reuse *)
Lemma no_null_files hs : nulls hs = 0 -> length (close_files hs) = length hs.
Proof. induction hs as [|h r IH]; cbn; auto. unfold isnull. destruct (h_file h); cbn; intros Z; [f_equal; apply IH; lia|lia]. Qed.
Lemma nulls_none hs i h : nulls hs = 0 -> nth_error hs i = Some h -> h_file h <> None.
Proof.
  revert i. induction hs as [|x r IH]; intros [|i] Z N; cbn in *; try discriminate.
  - injection N as ->. unfold isnull in Z. destruct (h_file h); [discriminate|lia].
  - eapply IH; eauto. lia.
Qed.
Lemma count_opened tr : count is_open tr = length (opened tr).
Proof. induction tr as [|e tr IH]; cbn; auto. destruct e; cbn; auto. Qed.
Lemma in_use_value tr s ret : Cnt tr s ret -> in_use tr = length (s_held s) + length ret + done s.
Proof. intros C. unfold in_use. rewrite (T_count _ _ _ C). lia. Qed.

Lemma reuse content tr s t f s' : exec content tr s -> open_failures tr = 0 -> step content s (Some (EOpen t f)) s' -> in_use tr = count is_open tr.
Proof.
  intros E Z St. destruct (exec_inv _ _ _ E) as (ret & J & C & T). rewrite (in_use_value _ _ _ C), count_opened, (V_opened _ _ _ T), seq_length.
  pose proof (T_null _ _ _ C) as Nl. rewrite Z in Nl. pose proof (I_local _ _ J t) as L.
  inversion St; subst; rename H2 into H; (rewrite (opening_crit _ _ t J) in Nl by (rewrite H; reflexivity)); rewrite H in *; cbn in Nl, L.
  - destruct L as (L & _). pose proof (nulls_none (s_handles s) i _ ltac:(lia) L) as Q. cbn in Q. congruence.
  - destruct L as (hs0 & L & Sc). rewrite L, nulls_app in Nl. cbn in Nl.
    assert (D : done s = 0) by (unfold done; rewrite (proj1 (I_lock _ _ J t)) by (rewrite H; reflexivity); rewrite H; reflexivity). rewrite D, Nat.add_0_r.
    assert (U : forall j, In j (map idx (s_held s ++ ret)) <-> j < length hs0).
    { intros j. split.
      - intros Q. apply in_map_iff in Q as ([[u k] g] & Q & R). cbn in Q. subst k. pose proof (I_sess _ _ J _ _ _ R) as N.
        assert (j < length hs0 \/ length hs0 <= j) as [K|K] by lia; auto. rewrite L, nth_error_app2 in N by auto. destruct (j - length hs0) as [|[|]]; discriminate.
      - intros K. destruct (nth_error hs0 j) as [h|] eqn:N; [|apply nth_error_None in N; lia].
        assert (N' : nth_error (s_handles s) j = Some h) by (rewrite L, nth_error_app1; auto).
        destruct (Sc j h K N) as [Q|Q]; [|exfalso; eapply nulls_none; [|exact N|exact Q]; lia].
        destruct (h_owner h) as [o|] eqn:O; [|congruence]. destruct (I_own _ _ J _ _ _ N' O) as [|(u & V & W)]; auto.
        replace u with t in W by (assert (s_lock s = Some t) by (apply (I_lock _ _ J); rewrite H; reflexivity); congruence). rewrite H in W. contradiction. }
    rewrite <- app_length, <- (map_length idx).
    assert (P : Permutation (map idx (s_held s ++ ret)) (seq 0 (length hs0))).
    { apply NoDup_Permutation; [apply J|apply seq_NoDup|]. intros j. rewrite U, in_seq. lia. }
    rewrite (Permutation_length P), seq_length.
    assert (P2 : Permutation (close_files (s_handles s)) (seq 0 (s_next s))).
    { destruct (close_spec _ _ _ E) as (A & B). apply NoDup_Permutation; [exact A|apply seq_NoDup|]. intros g. rewrite B, (V_opened _ _ _ T). tauto. }
    apply Permutation_length in P2. rewrite seq_length in P2. rewrite <- P2, L.
    assert (Q : close_files (hs0 ++ [{| h_file := None; h_owner := None |}]) = close_files hs0).
    { clear. induction hs0 as [|h r IH]; cbn; auto. destruct (h_file h); congruence. }
    rewrite Q, no_null_files; lia.
Qed.
