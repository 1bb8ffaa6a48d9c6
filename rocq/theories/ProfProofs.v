(** * Proofs about the profiler: measuring *)
From Verif Require Import CBase CBaseFacts SearchModel SearchSpec SearchProofs CppArrayModel CppArraySpec CppArrayProofs ProfModel ProfSpec.
Open Scope nat_scope.

(** ** Trees *)
Inductive entry : Type := Entry (n : cstr) (t : Z) (s : list entry).
Definition e_name (e : entry) : cstr := match e with Entry n _ _ => n end.
Definition e_subs (e : entry) : list entry := match e with Entry _ _ s => s end.
Inductive wf : list entry -> Prop := wf_forest f : names_strict (map e_name f) -> (forall e, In e f -> wf (e_subs e)) -> wf f.
Fixpoint find (n : cstr) (f : list entry) : option (Z * list entry) :=
  match f with
  | [] => None
  | Entry m t s :: r => if list_eq_dec Z.eq_dec m n then Some (t, s) else find n r
  end.
Fixpoint val (f : list entry) (q : list cstr) : option Z :=
  match q with
  | [] => None
  | n :: q => match find n f with None => None | Some (t, s) => match q with [] => Some t | _ => val s q end end
  end.
Definition oplus (a : option Z) (l : list Z) : option Z :=
  match l with [] => a | _ => Some (match a with Some x => x | None => 0%Z end + zsum l)%Z end.
Lemma zsum_app a b : zsum (a ++ b) = (zsum a + zsum b)%Z.
Proof. induction a; cbn [app zsum fold_right]; [reflexivity|]. unfold zsum in *. cbn [fold_right]. rewrite IHa. lia. Qed.
Lemma oplus_app a l1 l2 : oplus (oplus a l1) l2 = oplus a (l1 ++ l2).
Proof.
  destruct l1 as [|x l1]; [reflexivity|]. cbn [app]. unfold oplus at 2. destruct l2 as [|y l2]; [rewrite app_nil_r; reflexivity|]. cbn [oplus]. f_equal. change (x :: l1 ++ y :: l2) with ((x :: l1) ++ y :: l2). rewrite zsum_app. lia.
Qed.
Lemma find_mid n A name t s B : ~ In name (map e_name A) -> find n (A ++ Entry name t s :: B) = if list_eq_dec Z.eq_dec name n then Some (t, s) else find n (A ++ B).
Proof.
  induction A as [|[m u v] A IH]; intros NI; cbn [app find]; [reflexivity|]. cbn [map In e_name] in NI. rewrite IH by tauto.
  destruct (list_eq_dec Z.eq_dec m n), (list_eq_dec Z.eq_dec name n); try reflexivity. exfalso. apply NI. left. congruence.
Qed.

(** ** Lists *)
Lemma nth_len {A} (l : list A) i x : nth_error l i = Some x -> i < length l.
Proof. intros H. apply nth_error_Some. congruence. Qed.
Lemma replace_twice {A} (l : list A) i x y : replace (replace l i x) i y = replace l i y.
Proof. revert i. induction l as [|z l IH]; intros [|i]; cbn [replace]; auto. f_equal. apply IH. Qed.
Lemma replace_same {A} (l : list A) i x : nth_error l i = Some x -> replace l i x = l.
Proof. revert i. induction l as [|z l IH]; intros [|i] H; cbn [replace nth_error] in *; try discriminate; [congruence|]. f_equal. auto. Qed.
Lemma replace_mid {A} (l : list A) x r y : replace (l ++ x :: r) (length l) y = l ++ y :: r.
Proof. induction l; cbn [app length replace]; [reflexivity|]. f_equal. auto. Qed.
Lemma nth_mid {A} (l : list A) x r : nth_error (l ++ x :: r) (length l) = Some x.
Proof. induction l; cbn; auto. Qed.

(** ** Memory *)
Lemma block_ok h b a : nth_error h b = Some (Some a) -> block h b = OK a.
Proof. intros H. unfold block. rewrite (proj2 (aget_OK _ _ _) H). reflexivity. Qed.
Lemma node_ok h b i a n : nth_error h b = Some (Some a) -> nth_error a i = Some (Some n) -> node h (b, i) = OK n.
Proof. intros H H1. unfold node. cbn [fst snd]. rewrite (block_ok _ _ _ H). cbn [bind]. rewrite (proj2 (aget_OK _ _ _) H1). reflexivity. Qed.
Lemma put_node_ok h b i a v n : nth_error h b = Some (Some a) -> nth_error a i = Some v -> put_node h (b, i) n = OK (replace h b (Some (replace a i (Some n)))).
Proof.
  intros H H1. unfold put_node. cbn [fst snd]. rewrite (block_ok _ _ _ H). cbn [bind]. rewrite aset_replace by (eapply nth_len; eauto). cbn [bind]. apply aset_replace. eapply nth_len; eauto.
Qed.

Inductive reps (h : pheap) : option nat -> nat -> list entry -> list nat -> Prop :=
| reps_none : reps h None 0 [] []
| reps_some b ns f fp : nth_error h b = Some (Some (map Some ns)) -> ns <> [] -> nreps h ns f fp -> reps h (Some b) (length ns) f (b :: fp)
with nreps (h : pheap) : list pnode -> list entry -> list nat -> Prop :=
| nreps_nil : nreps h [] [] []
| nreps_cons n ns s f fp1 fp2 : p_prof n = 0%Z -> reps h (p_subs n) (p_num n) s fp1 -> nreps h ns f fp2 -> nreps h (n :: ns) (Entry (p_name n) (p_exec n) s :: f) (fp1 ++ fp2).
Scheme reps_ind2 := Minimality for reps Sort Prop with nreps_ind2 := Minimality for nreps Sort Prop.
Combined Scheme reps_mut from reps_ind2, nreps_ind2.

Lemma reps_frame_both h h' : (forall a m f fp, reps h a m f fp -> (forall b, In b fp -> nth_error h' b = nth_error h b) -> reps h' a m f fp) /\
  (forall ns f fp, nreps h ns f fp -> (forall b, In b fp -> nth_error h' b = nth_error h b) -> nreps h' ns f fp).
Proof.
  apply (reps_mut h (fun a m f fp => (forall b, In b fp -> nth_error h' b = nth_error h b) -> reps h' a m f fp) (fun ns f fp => (forall b, In b fp -> nth_error h' b = nth_error h b) -> nreps h' ns f fp)).
  - intros _. constructor.
  - intros b ns f fp Hb N _ IH E. constructor; [rewrite E by (left; reflexivity); exact Hb|exact N|]. apply IH. intros c I. apply E. right. exact I.
  - intros _. constructor.
  - intros n ns s f fp1 fp2 P _ IH1 _ IH2 E. constructor; [exact P|apply IH1|apply IH2]; intros c I; apply E; apply in_or_app; auto.
Qed.
Lemma reps_frame h h' a m f fp : reps h a m f fp -> (forall b, In b fp -> nth_error h' b = nth_error h b) -> reps h' a m f fp.
Proof. apply reps_frame_both. Qed.
Lemma nreps_frame h h' ns f fp : nreps h ns f fp -> (forall b, In b fp -> nth_error h' b = nth_error h b) -> nreps h' ns f fp.
Proof. apply reps_frame_both. Qed.
Definition plive (h : pheap) (b : nat) : Prop := exists a, nth_error h b = Some (Some a).
Lemma plive_lt h b : plive h b -> b < length h.
Proof. intros (a & H). eapply nth_len; eauto. Qed.
Lemma reps_live_both h : (forall a m f fp, reps h a m f fp -> forall b, In b fp -> plive h b) /\ (forall ns f fp, nreps h ns f fp -> forall b, In b fp -> plive h b).
Proof.
  apply (reps_mut h (fun a m f fp => forall b, In b fp -> plive h b) (fun ns f fp => forall b, In b fp -> plive h b)).
  - intros b [].
  - intros b ns f fp Hb N _ IH c [<- |I]; [eexists; exact Hb|auto].
  - intros b [].
  - intros n ns s f fp1 fp2 P _ IH1 _ IH2 c I. apply in_app_or in I as [I|I]; auto.
Qed.
Lemma reps_live h a m f fp b : reps h a m f fp -> In b fp -> plive h b.
Proof. intros R. apply (proj1 (reps_live_both h) _ _ _ _ R). Qed.
Lemma nreps_live h ns f fp b : nreps h ns f fp -> In b fp -> plive h b.
Proof. intros R. apply (proj2 (reps_live_both h) _ _ _ R). Qed.
Lemma nreps_names h ns f fp : nreps h ns f fp -> map e_name f = map p_name ns.
Proof. induction ns as [|n ns IH] in f, fp |- *; intros R; inversion R; subst; cbn [map e_name]; [reflexivity|]. f_equal. eauto. Qed.
Lemma nreps_length h ns f fp : nreps h ns f fp -> length f = length ns.
Proof. intros R. apply nreps_names in R. apply (f_equal (@length _)) in R. rewrite !map_length in R. exact R. Qed.
Lemma nreps_app h A B f fp : nreps h (A ++ B) f fp -> exists f1 f2 fp1 fp2, f = f1 ++ f2 /\ fp = fp1 ++ fp2 /\ nreps h A f1 fp1 /\ nreps h B f2 fp2.
Proof.
  induction A as [|n A IH] in f, fp |- *; intros R; cbn [app] in R; [exists [], f, [], fp; repeat split; [constructor|exact R]|]. inversion R; subst.
  destruct (IH _ _ H5) as (f1 & f2 & q1 & q2 & -> & -> & R1 & R2). exists (Entry (p_name n) (p_exec n) s :: f1), f2, (fp1 ++ q1), q2. rewrite app_assoc. repeat split; [constructor; assumption|exact R2].
Qed.
Lemma app_nreps h A B f1 f2 fp1 fp2 : nreps h A f1 fp1 -> nreps h B f2 fp2 -> nreps h (A ++ B) (f1 ++ f2) (fp1 ++ fp2).
Proof. induction A as [|n A IH] in f1, fp1 |- *; intros R1 R2; inversion R1; subst; cbn [app]; [exact R2|]. rewrite <- app_assoc. constructor; auto. Qed.

(** ** Where sections are entered *)
Definition with_cur (x : ctx) (c : option addr) : ctx := {| x_heap := x_heap x; x_cur := c; x_top := x_top x; x_num := x_num x |}.
Definition cell (h : pheap) (c : addr) (n : pnode) : Prop := exists a, nth_error h (fst c) = Some (Some a) /\ nth_error a (snd c) = Some (Some n).
Definition site (x : ctx) (par : option cstr) (pr : Z) (f : list entry) (fp : list nat) : Prop :=
  NoDup fp /\
  match x_cur x with
  | None => par = None /\ reps (x_heap x) (x_top x) (x_num x) f fp
  | Some c => exists n, cell (x_heap x) c n /\ par = Some (p_name n) /\ p_prof n = pr /\ reps (x_heap x) (p_subs n) (p_num n) f fp /\ ~ In (fst c) fp
  end.
Definition upd (n : pnode) (e d : Z) (arr : option nat) (num : nat) (par : option addr) : pnode :=
  {| p_name := p_name n; p_exec := e; p_prof := d; p_subs := arr; p_num := num; p_parent := par |}.
Record moved (x x' : ctx) (d : Z) (fp fp' : list nat) : Prop := {
  mv_cur : x_cur x' = x_cur x;
  mv_len : length (x_heap x) <= length (x_heap x');
  mv_frame : forall b, b < length (x_heap x) -> ~ In b fp -> (forall c, x_cur x = Some c -> fst c <> b) -> nth_error (x_heap x') b = nth_error (x_heap x) b;
  mv_cell : forall c, x_cur x = Some c -> x_top x' = x_top x /\ x_num x' = x_num x /\
    exists a n s m, nth_error (x_heap x) (fst c) = Some (Some a) /\ nth_error a (snd c) = Some (Some n) /\
      nth_error (x_heap x') (fst c) = Some (Some (replace a (snd c) (Some (upd n (p_exec n) (p_prof n + d) s m (p_parent n)))));
  mv_fresh : forall b, In b fp' -> In b fp \/ length (x_heap x) <= b;
  mv_live : forall b, plive (x_heap x') b -> In b fp' \/ (plive (x_heap x) b /\ ~ In b fp) }.

Lemma moved_refl x par pr f fp : site x par pr f fp -> moved x x 0 fp fp.
Proof.
  intros (ND & H). constructor; auto.
  - intros c Q. rewrite Q in H. destruct H as (n & (a & Ha & Hn) & _). split; [reflexivity|]. split; [reflexivity|]. exists a, n, (p_subs n), (p_num n). split; [exact Ha|]. split; [exact Hn|]. rewrite Ha. do 2 f_equal. symmetry. apply replace_same. rewrite Hn. do 2 f_equal. destruct n. unfold upd. cbn. f_equal. lia.
  - intros b L. destruct (in_dec Nat.eq_dec b fp); auto.
Qed.
Lemma moved_trans x y z d1 d2 fp fp1 fp2 : moved x y d1 fp fp1 -> moved y z d2 fp1 fp2 -> moved x z (d1 + d2) fp fp2.
Proof.
  intros M1 M2. pose proof (mv_len _ _ _ _ _ M1) as L1. pose proof (mv_len _ _ _ _ _ M2) as L2. constructor.
  - rewrite (mv_cur _ _ _ _ _ M2). apply (mv_cur _ _ _ _ _ M1).
  - lia.
  - intros b Lb NI NC. rewrite (mv_frame _ _ _ _ _ M2); [apply (mv_frame _ _ _ _ _ M1); assumption|lia| |].
    + intros I. destruct (mv_fresh _ _ _ _ _ M1 _ I); [contradiction|lia].
    + intros c Q. apply NC. rewrite <- (mv_cur _ _ _ _ _ M1). exact Q.
  - intros c Q. destruct (mv_cell _ _ _ _ _ M1 _ Q) as (T1 & N1 & a & n & s & m & Ha & Hn & Hy). assert (Q2 : x_cur y = Some c) by (rewrite (mv_cur _ _ _ _ _ M1); exact Q).
    destruct (mv_cell _ _ _ _ _ M2 _ Q2) as (T2 & N2 & a' & n' & s' & m' & Ha' & Hn' & Hz). split; [congruence|]. split; [congruence|]. rewrite Hy in Ha'. injection Ha' as <-. rewrite nth_replace_eq in Hn' by (eapply nth_len; eauto). injection Hn' as <-.
    exists a, n, s', m'. split; [exact Ha|]. split; [exact Hn|]. rewrite Hz. rewrite replace_twice. do 4 f_equal. unfold upd. cbn. f_equal. lia.
  - intros b I. destruct (mv_fresh _ _ _ _ _ M2 _ I) as [I1|I1]; [apply (mv_fresh _ _ _ _ _ M1 _ I1)|right; lia].
  - intros b L. destruct (mv_live _ _ _ _ _ M2 _ L) as [I|(L' & NI)]; [left; exact I|]. destruct (mv_live _ _ _ _ _ M1 _ L') as [I|I]; [contradiction|right; exact I].
Qed.

(** ** The search *)
Lemma bsearch_insert_fuel_ext c1 c2 : forall fuel lo hi, (forall i, lo <= i <= hi -> c1 i = c2 i) -> lo <= hi -> bsearch_insert_fuel fuel c1 lo hi = bsearch_insert_fuel fuel c2 lo hi.
Proof.
  induction fuel as [|fuel IH]; intros lo hi E L; [reflexivity|]. cbn [bsearch_insert_fuel]. destruct (Nat.eqb_spec lo hi) as [-> |N]; [rewrite (E hi) by lia; reflexivity|].
  assert (Hh : lo <= lo + (hi - lo) / 2 < hi). { pose proof (Nat.div_lt (hi - lo) 2 ltac:(lia) ltac:(lia)). lia. }
  rewrite (E (lo + (hi - lo) / 2)) by lia. destruct (c2 (lo + (hi - lo) / 2)) as [v| |]; cbn [bind]; try reflexivity.
  destruct (v <? 0)%Z; [apply IH; [intros; apply E; lia|lia]|]. destruct (0 <? v)%Z; [|reflexivity]. destruct (_ =? hi - 1); apply IH; try lia; intros; apply E; lia.
Qed.
Lemma stack_search_ok ns name : ns <> [] -> names_strict (map p_name ns) ->
  exists p f, stack_search (map Some ns) 0 (length ns - 1) name = OK (p, f) /\ (f = true <-> In name (map p_name ns)) /\ (f = true -> nth_error (map p_name ns) p = Some name) /\
    (f = false -> p <= length ns /\ names_strict (firstn p (map p_name ns) ++ name :: skipn p (map p_name ns))).
Proof.
  intros N S. destruct (name_insert_strict (map p_name ns) name) as (p & f & E & A & B & C); [destruct ns; [congruence|discriminate]|exact S|]. exists p, f. split; [|rewrite map_length in C; auto].
  rewrite <- E. unfold key_file_binary_search_insert, stack_search, bsearch_insert. rewrite map_length. apply bsearch_insert_fuel_ext; [|lia]. intros i L. unfold aget. rewrite !nth_error_map. destruct ns as [|n0 ns]; [congruence|]. cbn [length] in L. destruct (nth_error (n0 :: ns) i) as [n|] eqn:Q; [reflexivity|]. apply nth_error_None in Q. cbn in Q. lia.
Qed.
Lemma shift_ok A : forall R C (z : option pnode), shift (A ++ rev R ++ z :: C) (length A) (length R) = OK (A ++ hd z (rev R) :: rev R ++ C).
Proof.
  induction R as [|r R IH]; intros C z; cbn [length rev shift app hd]; [reflexivity|].
  rewrite <- !app_assoc. cbn [app]. unfold aget. rewrite nth_error_app2 by lia. replace (length A + length R - length A) with (length R) by lia. rewrite nth_error_app2 by (rewrite rev_length; lia). rewrite rev_length, Nat.sub_diag. cbn [nth_error bind].
  rewrite aset_replace by (rewrite !app_length, rev_length; cbn [length]; lia). cbn [bind]. replace (length A + S (length R)) with (length (A ++ rev R ++ [r])) by (rewrite !app_length, rev_length; cbn [length]; lia).
  replace (A ++ rev R ++ r :: z :: C) with ((A ++ rev R ++ [r]) ++ z :: C) by (rewrite <- !app_assoc; reflexivity). rewrite replace_mid. rewrite <- !app_assoc. cbn [app]. rewrite IH. do 2 f_equal.
  destruct (rev R) as [|r1 R1]; reflexivity.
Qed.

(** ** Entering a section *)
Definition holds (x : ctx) (par : option cstr) (pr : Z) (b m : nat) : Prop :=
  match x_cur x with
  | None => par = None /\ x_top x = Some b /\ x_num x = m
  | Some c => exists n, cell (x_heap x) c n /\ par = Some (p_name n) /\ p_prof n = pr /\ p_subs n = Some b /\ p_num n = m
  end.
Lemma set_site_ok x h par pr f fp b m : site x par pr f fp -> (forall c, x_cur x = Some c -> nth_error h (fst c) = nth_error (x_heap x) (fst c)) ->
  exists x1, set_site x h (Some b) m = OK x1 /\ x_cur x1 = x_cur x /\ length (x_heap x1) = length h /\
    (forall b', (forall c, x_cur x = Some c -> fst c <> b') -> nth_error (x_heap x1) b' = nth_error h b') /\ holds x1 par pr b m /\
    (forall c, x_cur x = Some c -> x_top x1 = x_top x /\ x_num x1 = x_num x /\
      exists a n s m, nth_error (x_heap x) (fst c) = Some (Some a) /\ nth_error a (snd c) = Some (Some n) /\
        nth_error (x_heap x1) (fst c) = Some (Some (replace a (snd c) (Some (upd n (p_exec n) (p_prof n + 0) s m (p_parent n)))))).
Proof.
  intros (ND & S) E. unfold set_site, holds. destruct (x_cur x) as [[cb ci]|] eqn:Q.
  - destruct S as (n & (a & Ha & Hn) & Ep & Epr & R & NI). cbn [fst snd] in *. specialize (E _ eq_refl). cbn [fst] in E. rewrite Ha in E. rewrite (node_ok _ _ _ _ _ E Hn). cbn [bind]. rewrite (put_node_ok _ _ _ _ _ _ E Hn). cbn [bind].
    set (n' := {| p_name := p_name n; p_exec := p_exec n; p_prof := p_prof n; p_subs := Some b; p_num := m; p_parent := p_parent n |}).
    eexists. split; [reflexivity|]. cbn [x_cur x_heap x_top x_num]. split; [reflexivity|]. split; [apply replace_length|].
    assert (Hn' : nth_error (replace h cb (Some (replace a ci (Some n')))) cb = Some (Some (replace a ci (Some n')))) by (apply nth_replace_eq; eapply nth_len; eauto).
    split; [|split].
    + intros b' NC. apply nth_replace_neq. apply (NC _ eq_refl).
    + exists n'. split; [exists (replace a ci (Some n')); cbn [fst snd]; split; [exact Hn'|apply nth_replace_eq; eapply nth_len; eauto]|]. repeat split; assumption.
    + intros c [= <-]. split; [reflexivity|]. split; [reflexivity|]. cbn [fst snd]. exists a, n, (Some b), m. split; [exact Ha|]. split; [exact Hn|]. rewrite Hn'. do 4 f_equal. unfold n', upd. f_equal. lia.
  - eexists. split; [reflexivity|]. cbn [x_cur x_heap x_top x_num]. destruct S as (-> & R). repeat split; auto; discriminate.
Qed.

Lemma get_site_ok x par pr f fp : site x par pr f fp -> exists arr num, get_site x = OK (arr, num) /\ reps (x_heap x) arr num f fp /\ NoDup fp /\
  (forall c, x_cur x = Some c -> ~ In (fst c) fp /\ plive (x_heap x) (fst c)) /\ (forall b, arr = Some b -> holds x par pr b num).
Proof.
  intros (ND & S). unfold get_site, holds. destruct (x_cur x) as [[cb ci]|] eqn:Q.
  - destruct S as (n & (a & Ha & Hn) & Ep & Epr & R & NI). cbn [fst snd] in *. rewrite (node_ok _ _ _ _ _ Ha Hn). cbn [bind]. exists (p_subs n), (p_num n). split; [reflexivity|]. split; [exact R|]. split; [exact ND|]. split.
    + intros c [= <-]. split; [exact NI|exists a; exact Ha].
    + intros b Eb. exists n. split; [exists a; split; assumption|]. auto.
  - destruct S as (-> & R). exists (x_top x), (x_num x). split; [reflexivity|]. split; [exact R|]. split; [exact ND|]. split; [discriminate|]. auto.
Qed.
Lemma map_firstn_skipn {A B} (g : A -> B) l p : firstn p (map g l) = map g (firstn p l) /\ skipn p (map g l) = map g (skipn p l).
Proof. split; [apply firstn_map|apply skipn_map]. Qed.
Lemma strict_nodup l : names_strict l -> NoDup l.
Proof.
  induction 1; constructor; [|assumption]. intros I. rewrite Forall_forall in H0. specialize (H0 _ I). apply strcmp_lt_bytes in H0. rewrite strcmp_refl in H0. lia.
Qed.
Lemma nth_app_old {A} (h : list A) x b : b < length h -> nth_error (h ++ [x]) b = nth_error h b.
Proof. intros. apply nth_error_app1. assumption. Qed.

Lemma enter_ok x par pr f fp name : site x par pr f fp -> wf f ->
 exists x1 b NA n NB fA s fB fpA fps fpB,
  enter x name = OK (x1, b, length NA) /\ p_name n = name /\ p_prof n = 0%Z /\
  nth_error (x_heap x1) b = Some (Some (map Some (NA ++ n :: NB))) /\
  nreps (x_heap x1) NA fA fpA /\ reps (x_heap x1) (p_subs n) (p_num n) s fps /\ nreps (x_heap x1) NB fB fpB /\
  (f = fA ++ Entry name (p_exec n) s :: fB \/ (f = fA ++ fB /\ ~ In name (map e_name f) /\ p_exec n = 0%Z /\ s = [])) /\
  wf (fA ++ Entry name (p_exec n) s :: fB) /\
  moved x x1 0 fp (b :: fpA ++ fps ++ fpB) /\
  holds x1 par pr b (length (NA ++ n :: NB)) /\
  (forall c, x_cur x = Some c -> ~ In (fst c) (b :: fpA ++ fps ++ fpB)) /\ NoDup (b :: fpA ++ fps ++ fpB).
Proof.
  intros HS W. pose proof HS as S0. apply get_site_ok in S0 as (arr & num & G & R & ND & NC & Hh). unfold enter. rewrite G. cbn [bind]. inversion R; subst.
  - (* the first one *)
    unfold p_malloc. destruct (set_site_ok x (x_heap x ++ [Some [Some (new_node name None)]]) par pr [] [] (length (x_heap x)) 1 HS) as (x1 & E1 & C1 & L1 & F1 & H1 & M1).
    { intros c Q. destruct (NC _ Q) as (_ & Lc). apply nth_app_old. apply plive_lt. exact Lc. }
    rewrite E1. cbn [bind]. exists x1, (length (x_heap x)), [], (new_node name None), [], [], [], [], [], [], [].
    assert (Hb : nth_error (x_heap x1) (length (x_heap x)) = Some (Some [Some (new_node name None)])).
    { rewrite F1; [apply nth_mid|]. intros c Q Ec. destruct (NC _ Q) as (_ & Lc). apply plive_lt in Lc. lia. }
    split; [reflexivity|]. split; [reflexivity|]. split; [reflexivity|]. split; [exact Hb|]. split; [constructor|]. split; [constructor|]. split; [constructor|].
    split; [right; repeat split; auto|]. split; [constructor; [repeat constructor|intros e [<- |[]]; constructor; [constructor|intros ? []]]|].
    split; [|split; [exact H1|split; [|repeat constructor; intros []]]].
    + constructor; [exact C1|rewrite L1, app_length; lia| |exact M1| |].
      * intros b Lb _ NQ. rewrite F1 by exact NQ. apply nth_app_old. exact Lb.
      * intros b [<- |[]]. right. lia.
      * intros b Lv. destruct (Nat.eq_dec b (length (x_heap x))) as [-> |N]; [left; left; reflexivity|]. right. split; [|intros []].
        destruct (x_cur x) as [c|] eqn:Q.
        -- destruct (Nat.eq_dec (fst c) b) as [<- |N2]; [apply (NC _ eq_refl)|]. destruct Lv as (a & La). rewrite F1 in La by (intros ? [= <-]; exact N2). exists a. rewrite <- La. symmetry. apply nth_app_old. apply nth_len in La. rewrite app_length in La. cbn in La. lia.
        -- destruct Lv as (a & La). rewrite F1 in La by discriminate. exists a. rewrite <- La. symmetry. apply nth_app_old. apply nth_len in La. rewrite app_length in La. cbn in La. lia.
    + intros c Q [Ec|[]]. destruct (NC _ Q) as (_ & Lc). apply plive_lt in Lc. lia.
  - (* others are there *)
    rename fp0 into fpn. rewrite (block_ok _ _ _ H). cbn [bind]. inversion W as [f0 Ws We]; subst f0.
    rewrite (nreps_names _ _ _ _ H1) in Ws. destruct (stack_search_ok ns name H0 Ws) as (p & fd & E & Fi & Ft & Ff). rewrite E. cbn [bind]. destruct fd.
    + (* found *)
      specialize (Ft eq_refl). rewrite nth_error_map in Ft. destruct (nth_error ns p) as [n|] eqn:Qn; [|discriminate]. cbn in Ft. injection Ft as Ft.
      destruct (nth_error_split _ _ Qn) as (NA & NB & -> & <-). destruct (nreps_app _ _ _ _ _ H1) as (fA & fB1 & fpA & fpB1 & -> & -> & RA & RB). inversion RB; subst. rename fp1 into fps, fp2 into fpB, f into fB.
      exists x, b, NA, n, NB, fA, s, fB, fpA, fps, fpB. split; [reflexivity|]. split; [reflexivity|]. split; [assumption|]. split; [exact H|]. split; [exact RA|]. split; [assumption|]. split; [assumption|]. split; [left; reflexivity|]. split; [exact W|].
      split; [apply (moved_refl _ _ _ _ _ HS)|]. split; [apply Hh; reflexivity|]. split; [intros c Q; apply NC; exact Q|exact ND].
    + (* not found *)
      destruct (Ff eq_refl) as (Lp & St). clear Ff Ft. assert (NI : ~ In name (map p_name ns)) by (intros I; apply Fi in I; discriminate).
      set (NA := firstn p ns). set (NB := skipn p ns). assert (Ens : ns = NA ++ NB) by (symmetry; apply firstn_skipn). assert (LA : length NA = p) by (apply firstn_length_le; exact Lp).
      assert (R2 := H1). rewrite Ens in R2. destruct (nreps_app _ _ _ _ _ R2) as (fA & fB & fpA & fpB & -> & -> & RA & RB). clear R2.
      rewrite firstn_all2 by (rewrite app_length, map_length; cbn; lia). unfold p_malloc. set (h := x_heap x) in *. set (b' := length h).
      assert (Lb : b < length h) by (eapply nth_len; eauto).
      unfold p_free. rewrite (block_ok (h ++ _) b (map Some ns)) by (rewrite nth_app_old by exact Lb; exact H). cbn [bind]. rewrite aset_replace by (rewrite app_length; lia). cbn [bind].
      set (h1 := replace (h ++ [Some (map Some ns ++ [None])]) b None).
      assert (Lh1 : length h1 = S (length h)) by (unfold h1; rewrite replace_length, app_length; cbn; lia).
      assert (B1 : nth_error h1 b' = Some (Some (map Some ns ++ [None]))) by (unfold h1, b'; rewrite nth_replace_neq by lia; apply nth_mid).
      rewrite (block_ok _ _ _ B1). cbn [bind].
      assert (Sh : shift (map Some ns ++ [None]) p (length ns - p) = OK (map Some NA ++ hd None (map Some NB) :: map Some NB)).
      { rewrite <- LA. replace (length ns - length NA) with (length (rev (map Some NB))) by (rewrite rev_length, map_length; rewrite Ens at 1; rewrite app_length; lia). rewrite Ens at 1. rewrite map_app, <- app_assoc. rewrite <- (rev_involutive (map Some NB)) at 1. replace (length NA) with (length (map (@Some pnode) NA)) by apply map_length. rewrite shift_ok, rev_involutive, app_nil_r. reflexivity. }
      rewrite Sh. cbn [bind]. rewrite aset_replace by (rewrite app_length, map_length; cbn [length]; lia). cbn [bind].
      replace (replace (map Some NA ++ hd None (map Some NB) :: map Some NB) p (Some (new_node name None))) with (map Some (NA ++ new_node name None :: NB)) by (rewrite <- LA; replace (length NA) with (length (map (@Some pnode) NA)) by apply map_length; rewrite replace_mid, map_app; reflexivity).
      unfold put. rewrite (block_ok _ _ _ B1). cbn [bind]. rewrite aset_replace by (unfold b'; lia). cbn [bind].
      set (h2 := replace h1 b' (Some (map Some (NA ++ new_node name None :: NB)))).
      assert (Old : forall c, c < length h -> c <> b -> nth_error h2 c = nth_error h c). { intros c Lc Nc. unfold h2, h1. rewrite nth_replace_neq by (unfold b'; lia). rewrite nth_replace_neq by lia. apply nth_app_old. exact Lc. }
      destruct (set_site_ok x h2 par pr _ _ b' (S (length ns)) HS) as (x1 & E1 & C1 & L1 & F1 & Ho & M1).
      { intros c Q. destruct (NC _ Q) as (Nc & Lc). apply Old; [apply plive_lt; exact Lc|]. intros Ec. apply Nc. left. symmetry. exact Ec. }
      rewrite E1. cbn [bind].
      assert (Hb : nth_error (x_heap x1) b' = Some (Some (map Some (NA ++ new_node name None :: NB)))).
      { rewrite F1; [apply nth_replace_eq; unfold b'; lia|]. intros c Q Ec. destruct (NC _ Q) as (_ & Lc). apply plive_lt in Lc. unfold b' in Ec. fold h in Lc. lia. }
      inversion ND as [|? ? Nb ND']; subst x0 l.
      assert (Fr : forall c, In c (fpA ++ fpB) -> nth_error (x_heap x1) c = nth_error h c).
      { intros c I. assert (Lc := nreps_live _ _ _ _ _ H1 I). rewrite F1; [apply Old; [apply plive_lt; exact Lc|intros ->; contradiction]|]. intros d Q Ed. destruct (NC _ Q) as (Nd & _). apply Nd. right. rewrite Ed. exact I. }
      assert (Nb' : ~ In b' (fpA ++ fpB)) by (intros I; apply (nreps_live _ _ _ _ _ H1) in I; apply plive_lt in I; unfold b' in I; lia).
      exists x1, b', NA, (new_node name None), NB, fA, [], fB, fpA, [], fpB. cbn [app].
      split; [rewrite LA; reflexivity|]. split; [reflexivity|]. split; [reflexivity|]. split; [exact Hb|].
      split; [apply (nreps_frame _ _ _ _ _ RA); intros; apply Fr; apply in_or_app; auto|]. split; [constructor|]. split; [apply (nreps_frame _ _ _ _ _ RB); intros; apply Fr; apply in_or_app; auto|].
      split; [right; split; [reflexivity|]; split; [rewrite (nreps_names _ _ _ _ H1); exact NI|split; reflexivity]|].
      split. { constructor. - rewrite map_app. cbn [map e_name]. rewrite (nreps_names _ _ _ _ RA), (nreps_names _ _ _ _ RB). unfold NA, NB. rewrite <- firstn_map, <- skipn_map. exact St. - intros e I. apply in_app_or in I as [I|[<- |I]]; [apply We; apply in_or_app; auto| |apply We; apply in_or_app; auto]. constructor; [constructor|intros ? []]. }
      split; [|split; [|split]].
      * constructor; [exact C1|rewrite L1; unfold h2; rewrite replace_length, Lh1; fold h; lia| |exact M1| |].
        -- intros c Lc Nc NQ. rewrite F1 by exact NQ. apply Old; [exact Lc|]. intros ->. apply Nc. left. reflexivity.
        -- intros c [<- |I]; [right; unfold b'; fold h; lia|left; right; exact I].
        -- intros c Lv. destruct (Nat.eq_dec c b') as [-> |N1]; [left; left; reflexivity|]. destruct (in_dec Nat.eq_dec c (fpA ++ fpB)) as [I|NIc]; [left; right; exact I|]. right.
           assert (Ecase : (exists d, x_cur x = Some d /\ fst d = c) \/ (forall d, x_cur x = Some d -> fst d <> c)).
           { destruct (x_cur x) as [d|]; [|right; discriminate]. destruct (Nat.eq_dec (fst d) c); [left; eauto|right; intros ? [= <-]; assumption]. }
           destruct Ecase as [(d & Qd & <-)|NQ]; [destruct (NC _ Qd); auto|]. destruct Lv as (a & La). rewrite F1 in La by exact NQ. assert (Nb2 : c <> b). { intros ->. unfold h2, h1 in La. rewrite nth_replace_neq in La by (unfold b'; lia). rewrite nth_replace_eq in La by (rewrite app_length; lia). discriminate. }
           assert (Lc : c < length h). { apply nth_len in La. unfold h2 in La. rewrite replace_length, Lh1 in La. unfold b' in N1. lia. }
           split; [exists a; rewrite <- La; symmetry; apply Old; assumption|]. intros [Ec|I]; [congruence|contradiction].
      * replace (length (NA ++ new_node name None :: NB)) with (S (length ns)) by (rewrite Ens at 1; rewrite !app_length; cbn [length]; lia). exact Ho.
      * intros c Q [Ec|I]; destruct (NC _ Q) as (Nc & Lc); [apply plive_lt in Lc; fold h in Lc; unfold b' in Ec; lia|apply Nc; right; exact I].
      * constructor; assumption.
Qed.
