(** * Ownership: every block belongs to one object

    [inv]: the objects represent the values, no block belongs to two objects;
    [covered]: every allocated block belongs to an object. *)
From Verif Require Import CBase CBaseFacts CppArrayModel CppArraySpec CppArrayProofs OwnModel.

Definition ptr_blocks (l : list (option ptr)) : list nat :=
  flat_map (fun p => match p with Some (b, _) => [b] | None => [] end) l.
Lemma in_ptr_blocks l b : In b (ptr_blocks l) <-> exists o, In (Some (b, o)) l.
Proof.
  unfold ptr_blocks. rewrite in_flat_map. split.
  - intros (p & I & Q). destruct p as [[b' o]|]; [|destruct Q]. destruct Q as [-> |[]]. eauto.
  - intros (o & I). exists (Some (b, o)). split; [exact I|left; reflexivity].
Qed.

(** Freeing a list of distinct blocks. *)
Lemma free_all_ok l : forall h, NoDup (ptr_blocks l) -> (forall b o, In (Some (b, o)) l -> o = 0 /\ exists c, nth_error h b = Some (Some c)) ->
  exists h', h_free_all h l = OK h' /\ length h' = length h /\
    (forall b, In b (ptr_blocks l) -> nth_error h' b = Some None) /\ (forall b, ~ In b (ptr_blocks l) -> nth_error h' b = nth_error h b).
Proof.
  induction l as [|p l IH]; intros h D H.
  - exists h. repeat split; auto. intros b [].
  - cbn [h_free_all]. destruct p as [[b o]|].
    + destruct (H b o (or_introl eq_refl)) as (-> & c & Q). cbn [h_free_opt]. unfold h_free. cbn [fst snd]. rewrite (proj2 (aget_OK _ _ _) Q). cbn [bind Nat.eqb].
      pose proof (nth_lt _ _ _ Q) as Lb. rewrite aset_replace by exact Lb. cbn [bind]. cbn [ptr_blocks flat_map app] in D. fold (ptr_blocks l) in D. inversion D as [|? ? NI D']; subst.
      destruct (IH (replace h b None) D') as (h' & E & L & F & G).
      * intros b' o' I. destruct (H b' o' (or_intror I)) as (-> & c' & Q'). split; [reflexivity|]. exists c'. rewrite nth_replace_neq; [exact Q'|].
        intros ->. apply NI. apply in_ptr_blocks. eauto.
      * exists h'. split; [exact E|]. split; [rewrite L; apply replace_length|]. cbn [ptr_blocks flat_map app]. fold (ptr_blocks l). split.
        -- intros b' [<-|I]; [|auto]. rewrite G by exact NI. apply nth_replace_eq. exact Lb.
        -- intros b' NI'. rewrite G by (intros I; apply NI'; right; exact I). apply nth_replace_neq. intros ->. apply NI'. left. reflexivity.
    + cbn [h_free_opt bind]. cbn [ptr_blocks flat_map app] in *. apply IH; [exact D|]. intros b o I. apply (H b o). right. exact I.
Qed.

Section Blocks.
  Context {A : Type}.
  Variable blocks : A -> list nat.
  Definition oblocks (o : option A) : list nat := match o with Some a => blocks a | None => [] end.
  Definition covered (s : store A) : Prop :=
    forall b, live s b -> exists j o, nth_error (st_objs s) j = Some o /\ In b (oblocks o).
  Lemma covered_fresh s ext a : covered s -> (forall b c, nth_error ext b = Some (Some c) -> In (length (st_heap s) + b) (blocks a)) ->
    covered (new_obj s (st_heap s ++ ext) a).
  Proof.
    intros C F b (c & Q). cbn [new_obj st_heap st_objs] in *. destruct (Nat.lt_ge_cases b (length (st_heap s))) as [L|L].
    - rewrite nth_error_app1 in Q by exact L. destruct (C b (ex_intro _ c Q)) as (j & o & Qo & Io). exists j, o. split; [|exact Io]. rewrite nth_error_app1 by (eapply nth_lt; eauto). exact Qo.
    - rewrite nth_error_app2 in Q by exact L. apply F in Q. replace (length (st_heap s) + (b - length (st_heap s))) with b in Q by lia.
      exists (length (st_objs s)), (Some a). split; [|exact Q]. rewrite nth_error_app2, Nat.sub_diag by lia. reflexivity.
  Qed.
  Lemma covered_fresh_put s ext j a o : covered s -> nth_error (st_objs s) j = Some o -> oblocks o = [] ->
    (forall b c, nth_error ext b = Some (Some c) -> In (length (st_heap s) + b) (blocks a)) ->
    covered {| st_heap := st_heap s ++ ext; st_objs := replace (st_objs s) j (Some a) |}.
  Proof.
    intros C Qj B F b (c & Q). cbn [st_heap st_objs] in *. pose proof (nth_lt _ _ _ Qj) as Lj. destruct (Nat.lt_ge_cases b (length (st_heap s))) as [L|L].
    - rewrite nth_error_app1 in Q by exact L. destruct (C b (ex_intro _ c Q)) as (i & p & Qp & Ip). exists i, p. split; [|exact Ip].
      rewrite nth_replace_neq; [exact Qp|]. intros ->. rewrite Qj in Qp. injection Qp as <-. rewrite B in Ip. destruct Ip.
    - rewrite nth_error_app2 in Q by exact L. apply F in Q. replace (length (st_heap s) + (b - length (st_heap s))) with b in Q by lia.
      exists j, (Some a). split; [|exact Q]. apply nth_replace_eq. exact Lj.
  Qed.
  Lemma covered_move_new s j a e : covered s -> nth_error (st_objs s) j = Some (Some a) ->
    covered {| st_heap := st_heap s; st_objs := replace (st_objs s) j (Some e) ++ [Some a] |}.
  Proof.
    intros C Qa b Q. cbn [st_objs st_heap] in *. destruct (C b Q) as (i & p & Qp & Ip). destruct (Nat.eq_dec i j) as [->|N].
    - rewrite Qa in Qp. injection Qp as <-. exists (length (st_objs s)), (Some a). split; [|exact Ip]. rewrite nth_error_app2 by (rewrite replace_length; lia). rewrite replace_length, Nat.sub_diag. reflexivity.
    - exists i, p. split; [|exact Ip]. rewrite nth_error_app1 by (rewrite replace_length; eapply nth_lt; eauto). rewrite nth_replace_neq by auto. exact Qp.
  Qed.
  Lemma covered_move_to s i j a e o : covered s -> i <> j -> nth_error (st_objs s) j = Some (Some a) -> nth_error (st_objs s) i = Some o -> oblocks o = [] ->
    covered {| st_heap := st_heap s; st_objs := replace (replace (st_objs s) i (Some a)) j (Some e) |}.
  Proof.
    intros C N Qa Qi B b Q. cbn [st_objs st_heap] in *. rewrite (replace_comm _ i j) by exact N. pose proof (nth_lt _ _ _ Qi) as Li.
    destruct (C b Q) as (k & p & Qp & Ip). destruct (Nat.eq_dec k j) as [->|Nj].
    - rewrite Qa in Qp. injection Qp as <-. exists i, (Some a). split; [|exact Ip]. apply nth_replace_eq. rewrite replace_length. exact Li.
    - exists k, p. split; [|exact Ip]. rewrite nth_replace_neq; [rewrite nth_replace_neq by auto; exact Qp|].
      intros ->. rewrite Qi in Qp. injection Qp as <-. rewrite B in Ip. destruct Ip.
  Qed.
  Lemma covered_destroy s j a h : covered s -> nth_error (st_objs s) j = Some (Some a) ->
    (forall b, In b (blocks a) -> nth_error h b = Some None) -> (forall b, ~ In b (blocks a) -> nth_error h b = nth_error (st_heap s) b) ->
    covered {| st_heap := h; st_objs := replace (st_objs s) j None |}.
  Proof.
    intros C Qa F G b (c & Q). cbn [st_objs st_heap] in *. destruct (in_dec Nat.eq_dec b (blocks a)) as [I|I]; [rewrite (F b I) in Q; discriminate|].
    rewrite (G b I) in Q. destruct (C b (ex_intro _ c Q)) as (i & p & Qp & Ip). exists i, p. split; [|exact Ip]. rewrite nth_replace_neq; [exact Qp|].
    intros ->. rewrite Qa in Qp. injection Qp as <-. exact (I Ip).
  Qed.
  Lemma covered_update s b c : covered s -> live s b -> covered {| st_heap := replace (st_heap s) b (Some c); st_objs := st_objs s |}.
  Proof.
    intros C Lb b' (c' & Q). cbn [st_objs st_heap] in *. apply C. destruct (Nat.eq_dec b b') as [->|N]; [exact Lb|]. rewrite nth_replace_neq in Q by exact N. exists c'. exact Q.
  Qed.

  Lemma covered_store0 : covered store0.
  Proof. intros b (c & Q). destruct b; discriminate. Qed.
End Blocks.

Section Own.
  Context {A V : Type}.
  Variable blocks : A -> list nat.
  Variable rep : heap -> A -> V -> Prop.
  Hypothesis rep_frame : forall h h' a w, rep h a w -> (forall b, In b (blocks a) -> nth_error h' b = nth_error h b) -> rep h' a w.
  Hypothesis rep_live : forall h a w b, rep h a w -> In b (blocks a) -> exists c, nth_error h b = Some (Some c).

  Definition orep (h : heap) (o : option A) (w : option V) : Prop :=
    match o, w with Some a, Some x => rep h a x | None, None => True | _, _ => False end.

  Definition inv (s : store A) (v : list (option V)) : Prop :=
    length (st_objs s) = length v /\
    (forall j o w, nth_error (st_objs s) j = Some o -> nth_error v j = Some w -> orep (st_heap s) o w) /\
    (forall i j o p b, i <> j -> nth_error (st_objs s) i = Some o -> nth_error (st_objs s) j = Some p -> In b (oblocks blocks o) -> In b (oblocks blocks p) -> False).

  Lemma orep_frame h h' o w : orep h o w -> (forall b, In b (oblocks blocks o) -> nth_error h' b = nth_error h b) -> orep h' o w.
  Proof using rep_frame rep_live. destruct o, w; cbn; auto. intros R H. eapply rep_frame; eauto. Qed.
  Lemma orep_live h o w b : orep h o w -> In b (oblocks blocks o) -> exists c, nth_error h b = Some (Some c).
  Proof using rep_frame rep_live. destruct o as [a|]; [|intros _ []]. destruct w as [x|]; [|intros []]. cbn. apply rep_live. Qed.

  Lemma inv_get s v j x : inv s v -> nth_error v j = Some (Some x) ->
    exists a, nth_error (st_objs s) j = Some (Some a) /\ rep (st_heap s) a x /\ get_obj s j = OK a.
  Proof using A V blocks rep.
    intros (L & R & _) N. pose proof (nth_lt _ _ _ N) as Lt. destruct (nth_error (st_objs s) j) as [o|] eqn:Q.
    - pose proof (R _ _ _ Q N) as Ro. destruct o as [a|]; [|destruct Ro]. exists a. split; [reflexivity|]. split; [exact Ro|]. unfold get_obj. rewrite (proj2 (aget_OK _ _ _) Q). reflexivity.
    - apply nth_error_None in Q. lia.
  Qed.

  Lemma inv_block_lt s v j o b : inv s v -> nth_error (st_objs s) j = Some o -> In b (oblocks blocks o) -> b < length (st_heap s).
  Proof using rep_frame rep_live.
    intros (L & R & _) Q I. destruct (nth_error v j) as [w|] eqn:N.
    - destruct (orep_live _ _ _ b (R _ _ _ Q N) I) as (c & E). eapply nth_lt; eauto.
    - apply nth_error_None in N. apply nth_lt in Q. lia.
  Qed.

  (** A new object. *)
  Lemma inv_new s v h a w : inv s v ->
    (forall j o b, nth_error (st_objs s) j = Some o -> In b (oblocks blocks o) -> nth_error h b = nth_error (st_heap s) b) ->
    rep h a w ->
    (forall b j o, In b (blocks a) -> nth_error (st_objs s) j = Some o -> ~ In b (oblocks blocks o)) ->
    inv (new_obj s h a) (v ++ [Some w]).
  Proof using rep_frame rep_live.
    intros (L & R & D) E Ra Fr. unfold new_obj. split; [|split]; cbn [st_heap st_objs].
    - rewrite !app_length, L. reflexivity.
    - intros j o x Qo Qx. destruct (nth_snoc _ _ _ _ Qo) as [[L1 Q1]|[-> ->]].
      + rewrite nth_error_app1 in Qx by lia. eapply orep_frame; [eapply R; eauto|]. intros b I. eapply E; eauto.
      + rewrite L in Qx. rewrite nth_error_app2, Nat.sub_diag in Qx by lia. injection Qx as <-. exact Ra.
    - intros i j o p b N Qo Qp Oo Op.
      destruct (nth_snoc _ _ _ _ Qo) as [[L1 Q1]|[-> ->]], (nth_snoc _ _ _ _ Qp) as [[L2 Q2]|[-> ->]]; [eauto| | |lia].
      + exact (Fr b i o Op Q1 Oo).
      + exact (Fr b j p Oo Q2 Op).
  Qed.

  (** One object and the memory change. *)
  Lemma inv_put s v h j o w : inv s v -> j < length v ->
    (forall i p b, i <> j -> nth_error (st_objs s) i = Some p -> In b (oblocks blocks p) -> nth_error h b = nth_error (st_heap s) b) -> orep h o w ->
    (forall b i p, i <> j -> In b (oblocks blocks o) -> nth_error (st_objs s) i = Some p -> ~ In b (oblocks blocks p)) ->
    inv {| st_heap := h; st_objs := replace (st_objs s) j o |} (replace v j w).
  Proof using rep_frame rep_live.
    intros (L & R & D) Lj E Ro Fr. split; [|split]; cbn [st_heap st_objs].
    - rewrite !replace_length. exact L.
    - intros i p x Qo Qx. destruct (Nat.eq_dec i j) as [->|N].
      + rewrite nth_replace_eq in Qo by lia. rewrite nth_replace_eq in Qx by lia. congruence.
      + rewrite nth_replace_neq in Qo by auto. rewrite nth_replace_neq in Qx by auto. eapply orep_frame; [eapply R; eauto|]. intros b I. eapply E; eauto.
    - intros i k p q b N Qo Qp Oo Op.
      destruct (Nat.eq_dec i j) as [->|Ni], (Nat.eq_dec k j) as [->|Nk]; [lia| | |].
      + rewrite nth_replace_eq in Qo by lia. injection Qo as <-. rewrite nth_replace_neq in Qp by auto. exact (Fr b k q Nk Oo Qp Op).
      + rewrite nth_replace_eq in Qp by lia. injection Qp as <-. rewrite nth_replace_neq in Qo by auto. exact (Fr b i p Ni Op Qo Oo).
      + rewrite nth_replace_neq in Qo by auto. rewrite nth_replace_neq in Qp by auto. exact (D i k p q b N Qo Qp Oo Op).
  Qed.

  (** The usual ways to change the store. *)

  (** A new object with new memory; [ext] may contain blocks that are not the
      object's. *)
  Lemma inv_fresh s v ext a w : inv s v -> rep (st_heap s ++ ext) a w -> (forall b, In b (blocks a) -> length (st_heap s) <= b) ->
    inv (new_obj s (st_heap s ++ ext) a) (v ++ [Some w]).
  Proof using rep_frame rep_live.
    intros I R Fr. apply inv_new; auto.
    - intros j o b Q Ib. apply nth_error_app1. eapply inv_block_lt; eauto.
    - intros b j o Ib Q Io. pose proof (inv_block_lt _ _ _ _ _ I Q Io). specialize (Fr b Ib). lia.
  Qed.
  Lemma inv_fresh_put s v ext j a w : inv s v -> j < length v -> rep (st_heap s ++ ext) a w -> (forall b, In b (blocks a) -> length (st_heap s) <= b) ->
    inv {| st_heap := st_heap s ++ ext; st_objs := replace (st_objs s) j (Some a) |} (replace v j (Some w)).
  Proof using rep_frame rep_live.
    intros I L R Fr. apply inv_put; auto.
    - intros i p b Ni Q Ib. apply nth_error_app1. eapply inv_block_lt; eauto.
    - intros b i p Ni Ib Q Io. pose proof (inv_block_lt _ _ _ _ _ I Q Io). specialize (Fr b Ib). lia.
  Qed.

  (** [j] gives its blocks up ([e] has none). *)
  Lemma inv_empty s v j e w : inv s v -> j < length v -> blocks e = [] -> rep (st_heap s) e w ->
    inv {| st_heap := st_heap s; st_objs := replace (st_objs s) j (Some e) |} (replace v j (Some w)).
  Proof using rep_frame rep_live. intros I L B R. apply inv_put; auto. intros b i p _ Ib. cbn [oblocks] in Ib. rewrite B in Ib. destruct Ib. Qed.

  Lemma inv_move_new s v j a x e w : inv s v -> nth_error (st_objs s) j = Some (Some a) -> nth_error v j = Some (Some x) -> blocks e = [] -> rep (st_heap s) e w ->
    inv {| st_heap := st_heap s; st_objs := replace (st_objs s) j (Some e) ++ [Some a] |} (replace v j (Some w) ++ [Some x]).
  Proof using rep_frame rep_live.
    intros I Qa Qx B R. pose proof (nth_lt _ _ _ Qx) as Lj. pose proof (inv_empty s v j e w I Lj B R) as I1.
    pose proof (nth_lt _ _ _ Qa) as Lj'.
    set (s1 := {| st_heap := st_heap s; st_objs := replace (st_objs s) j (Some e) |}) in *.
    apply (inv_new s1 _ (st_heap s) a x I1); auto.
    - destruct I as (_ & Rp & _). exact (Rp _ _ _ Qa Qx).
    - intros b i o Ib Q Io. cbn [s1 st_objs] in Q. destruct (Nat.eq_dec i j) as [->|Ni].
      + rewrite nth_replace_eq in Q by exact Lj'. injection Q as <-. cbn [oblocks] in Io. rewrite B in Io. destruct Io.
      + rewrite nth_replace_neq in Q by auto. destruct I as (_ & _ & D). exact (D i j o (Some a) b Ni Q Qa Io Ib).
  Qed.

  Lemma inv_move_to s v i j a x e w : inv s v -> i <> j -> i < length v -> nth_error (st_objs s) j = Some (Some a) -> nth_error v j = Some (Some x) -> blocks e = [] -> rep (st_heap s) e w ->
    inv {| st_heap := st_heap s; st_objs := replace (replace (st_objs s) i (Some a)) j (Some e) |} (replace (replace v i (Some x)) j (Some w)).
  Proof using rep_frame rep_live.
    intros I N Li Qa Qx B R. pose proof (nth_lt _ _ _ Qx) as Lj. pose proof (inv_empty s v j e w I Lj B R) as I1.
    pose proof (nth_lt _ _ _ Qa) as Lj'. rewrite (replace_comm _ i j) by exact N. rewrite (replace_comm v i j) by exact N.
    set (s1 := {| st_heap := st_heap s; st_objs := replace (st_objs s) j (Some e) |}) in *.
    apply (inv_put s1 (replace v j (Some w)) (st_heap s) i (Some a) (Some x) I1); auto.
    - rewrite replace_length. exact Li.
    - destruct I as (_ & Rp & _). exact (Rp _ _ _ Qa Qx).
    - intros b k o Nk Ib Q Io. cbn [s1 st_objs] in Q. destruct (Nat.eq_dec k j) as [->|Nkj].
      + rewrite nth_replace_eq in Q by exact Lj'. injection Q as <-. cbn [oblocks] in Io. rewrite B in Io. destruct Io.
      + rewrite nth_replace_neq in Q by auto. destruct I as (_ & _ & D). exact (D k j o (Some a) b Nkj Q Qa Io Ib).
  Qed.

  (** [j] is destroyed: only its blocks change. *)
  Lemma inv_destroy s v j a h : inv s v -> nth_error (st_objs s) j = Some (Some a) ->
    (forall b, ~ In b (blocks a) -> nth_error h b = nth_error (st_heap s) b) ->
    inv {| st_heap := h; st_objs := replace (st_objs s) j None |} (replace v j None).
  Proof using rep_frame rep_live.
    intros I Qa F. pose proof (nth_lt _ _ _ Qa) as Lj. pose proof I as (L & _ & D). apply inv_put; [exact I|lia| |exact Logic.I|intros b i p _ []].
    intros i p b Ni Q Ib. apply F. intros Ia. exact (D i j p (Some a) b Ni Q Qa Ib Ia).
  Qed.

  (** One block of [j] changes, the object does not. *)
  Lemma inv_update s v j a b c x : inv s v -> nth_error (st_objs s) j = Some (Some a) -> j < length v -> In b (blocks a) -> b < length (st_heap s) ->
    rep (replace (st_heap s) b (Some c)) a x ->
    inv {| st_heap := replace (st_heap s) b (Some c); st_objs := st_objs s |} (replace v j (Some x)).
  Proof using rep_frame rep_live.
    intros I Qa Lj Ib Lb R. pose proof I as (L & Rp & D).
    assert (Same : replace (st_objs s) j (Some a) = st_objs s).
    { clear - Qa. revert j Qa. generalize (st_objs s). induction l as [|y l IH]; intros [|j] Q; cbn in *; try discriminate; [congruence|f_equal; auto]. }
    rewrite <- Same at 1. apply (inv_put s v _ j (Some a) (Some x) I Lj); auto.
    - intros i p b' Ni Q I'. apply nth_replace_neq. intros ->. exact (D i j p (Some a) b' Ni Q Qa I' Ib).
    - intros b' i p Ni Ia Q Io. exact (D i j p (Some a) b' Ni Q Qa Io Ia).
  Qed.

  Lemma inv_store0 : inv store0 [].
  Proof using A V blocks rep. split; [reflexivity|]. split; intros; destruct j; discriminate || (destruct i; discriminate). Qed.

  (** Nothing is left when every object is gone. *)
  Lemma all_gone s v : inv s v -> covered blocks s -> Forall (fun o => o = None) v -> forall b, ~ live s b.
  Proof using A V blocks rep.
    intros (L & R & _) C F b Q. destruct (C b Q) as (j & o & Qo & Io). destruct (nth_error v j) as [w|] eqn:E; [|apply nth_error_None in E; apply nth_lt in Qo; lia].
    rewrite Forall_forall in F. pose proof (F w (nth_error_In _ _ E)) as ->. pose proof (R _ _ _ Qo E) as Z. destruct o; [destruct Z|]. destruct Io.
  Qed.
End Own.
