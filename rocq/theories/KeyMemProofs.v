(** * Proofs: the memory of a keyword table *)
From Coq Require Import Permutation.
From Verif Require Import CBase CBaseFacts SearchModel SearchProofs KeyTableModel KeyTableProofs KeyParseModel KeyMemModel KeyMemSpec.

(** ** Arrays *)
Lemma aset_at {A} (a : list A) i v : i < length a -> exists a', aset a i v = OK a' /\ length a' = length a /\ forall j, nth_error a' j = if j =? i then Some v else nth_error a j.
Proof.
  revert i. induction a as [|x a IH]; intros i L; [cbn in L; lia|]. destruct i as [|i].
  - exists (v :: a). split; [reflexivity|]. split; [reflexivity|]. intros [|j]; reflexivity.
  - destruct (IH i) as (a' & E & La & N); [cbn in L; lia|]. exists (x :: a'). cbn [aset]. rewrite E. split; [reflexivity|]. split; [cbn; lia|].
    intros [|j]; [reflexivity|]. cbn [nth_error]. rewrite N. reflexivity.
Qed.
Lemma aset_mid {A} (a : list A) x b v : aset (a ++ x :: b) (length a) v = OK (a ++ v :: b).
Proof. induction a as [|y a IH]; [reflexivity|]. cbn [app length aset]. rewrite IH. reflexivity. Qed.
Lemma nth_last {A} (l : list A) x j : nth_error (l ++ [x]) j = if j =? length l then Some x else nth_error l j.
Proof.
  destruct (Nat.eqb_spec j (length l)) as [-> |N]; [rewrite nth_error_app2, Nat.sub_diag by lia; reflexivity|].
  destruct (Nat.lt_ge_cases j (length l)); [apply nth_error_app1; lia|]. rewrite (proj2 (nth_error_None l j)) by lia.
  apply nth_error_None. rewrite app_length. cbn. lia.
Qed.

Lemma nodup_app {A} (a b : list A) : NoDup (a ++ b) <-> NoDup a /\ NoDup b /\ forall x, In x a -> ~ In x b.
Proof.
  induction a as [|y a IH]; cbn [app].
  - split; [intros N; repeat split; [constructor|exact N|intros x []]|tauto].
  - rewrite !NoDup_cons_iff, IH, in_app_iff. cbn [In]. split.
    + intros (N & Na & Nb & Sx). repeat split; try tauto. intros x [<- |I]; [tauto|apply Sx, I].
    + intros ((N & Na) & Nb & Sx). repeat split; try tauto; [|intros x I; apply Sx; auto]. intros [I|I]; [tauto|]. apply (Sx y); auto.
Qed.

(** ** Freeing *)
Lemma m_block_ok h b x : nth_error h b = Some (Some x) -> m_block h b = OK x.
Proof. intros E. unfold m_block. apply aget_OK in E. rewrite E. reflexivity. Qed.
Lemma m_string_ok h b s : shows_string h b s -> m_string h b = OK s.
Proof. intros E. unfold m_string. rewrite (m_block_ok _ _ _ E). reflexivity. Qed.
Lemma m_cards_ok h b l : nth_error h b = Some (Some (BCards l)) -> m_card_cells h b = OK l.
Proof. intros E. unfold m_card_cells. rewrite (m_block_ok _ _ _ E). reflexivity. Qed.
Lemma m_table_ok h b l : nth_error h b = Some (Some (BTable l)) -> m_table h b = OK l.
Proof. intros E. unfold m_table. rewrite (m_block_ok _ _ _ E). reflexivity. Qed.
Lemma m_free_ok h b x : nth_error h b = Some (Some x) -> exists h', m_free h b = OK h' /\ freed h [b] h'.
Proof.
  intros E. unfold m_free. rewrite (m_block_ok _ _ _ E). cbn [bind]. pose proof (nth_error_Some_lt _ _ _ E) as L.
  destruct (aset_at h b None L) as (h' & Eh & Lh & N). exists h'. split; [exact Eh|]. split; [exact Lh|]. split; intros c Hc; rewrite N.
  - destruct Hc as [<- |[]]. rewrite Nat.eqb_refl. reflexivity.
  - destruct (Nat.eqb_spec c b) as [-> |]; [exfalso; apply Hc; left; reflexivity|reflexivity].
Qed.
Lemma freed_nil h : freed h [] h.
Proof. split; [reflexivity|]. split; [intros b []|reflexivity]. Qed.
Lemma freed_trans h l1 h1 l2 h2 : freed h l1 h1 -> freed h1 l2 h2 -> freed h (l1 ++ l2) h2.
Proof.
  intros (L1 & F1 & K1) (L2 & F2 & K2). split; [congruence|]. split; intros b Hb.
  - destruct (in_dec Nat.eq_dec b l2) as [I|I]; [exact (F2 b I)|]. rewrite (K2 b I). apply F1. apply in_app_or in Hb. tauto.
  - rewrite K2, K1; [reflexivity| |]; intros I; apply Hb, in_or_app; auto.
Qed.
Lemma freed_ext h l l' h' : freed h l h' -> (forall b, In b l <-> In b l') -> freed h l' h'.
Proof. intros (L & F & K) E. split; [exact L|]. split; intros b Hb; [apply F, E, Hb|apply K; rewrite E; exact Hb]. Qed.
Lemma freed_keep h l h' b x : freed h l h' -> nth_error h b = x -> ~ In b l -> nth_error h' b = x.
Proof. intros (_ & _ & K) E N. rewrite K by exact N. exact E. Qed.

(** A keyword of the table with its memory. *)
Record desc : Type := { d_name : nat; d_text : cstr; d_cards : option nat; d_list : list (nat * cstr) }.
Definition dcell (D : desc) : mkeyword := {| m_name := d_name D; m_cards := d_cards D; m_num := length (d_list D) |}.
Definition dkw (D : desc) : keyword := {| kw_name := d_text D; kw_cards := map snd (d_list D) |}.
Definition down (D : desc) : list nat := d_name D :: match d_cards D with None => [] | Some c => c :: map fst (d_list D) end.
Definition dgood (h : mheap) (D : desc) : Prop :=
  shows_string h (d_name D) (d_text D) /\
  match d_cards D with
  | None => d_list D = []
  | Some c => nth_error h c = Some (Some (BCards (map Some (map fst (d_list D))))) /\ Forall (fun p => shows_string h (fst p) (snd p)) (d_list D)
  end.
Definition dcells (Ds : list desc) : list (option mkeyword) := map Some (map dcell Ds).

Lemma dgood_frame h h' D : dgood h D -> (forall b, In b (down D) -> nth_error h' b = nth_error h b) -> dgood h' D.
Proof.
  intros (Hn & Hc) F. split; [unfold shows_string; rewrite F by (left; reflexivity); exact Hn|].
  unfold down in F. destruct (d_cards D) as [c|]; [|exact Hc]. destruct Hc as (Hc & Hl). split; [rewrite F by (right; left; reflexivity); exact Hc|].
  rewrite Forall_forall in *. intros p Hp. unfold shows_string. rewrite F; [apply Hl, Hp|]. right. right. apply in_map, Hp.
Qed.

Lemma free_cards_ok c rest : forall L0 h, nth_error h c = Some (Some (BCards (map Some (map fst (L0 ++ rest))))) ->
  Forall (fun p => shows_string h (fst p) (snd p)) rest -> NoDup (c :: map fst rest) ->
  exists h', free_cards h (Some c) (length L0) (length rest) = OK h' /\ freed h (map fst rest) h'.
Proof.
  induction rest as [|p rest IH]; intros L0 h Hc Hr ND.
  - exists h. split; [reflexivity|apply freed_nil].
  - inversion Hr as [|? ? Hp Hr']; subst. cbn [map] in ND. inversion ND as [|? ? Nc ND']; subst. inversion ND' as [|? ? Np ND'']; subst.
    cbn [length free_cards]. rewrite (m_cards_ok _ _ _ Hc). cbn [bind].
    rewrite !map_app. cbn [map].
    replace (aget (map Some (map fst L0) ++ Some (fst p) :: map Some (map fst rest)) (length L0)) with (OK (Some (fst p))).
    2:{ symmetry. apply aget_OK. rewrite nth_error_app2; rewrite !map_length; [|lia]. rewrite Nat.sub_diag. reflexivity. }
    cbn [bind m_init]. destruct (m_free_ok h (fst p) _ Hp) as (h1 & -> & F1). cbn [bind].
    destruct (IH (L0 ++ [p]) h1) as (h2 & E2 & F2).
    + rewrite <- app_assoc. cbn [app]. apply (freed_keep _ _ _ _ _ F1 Hc). intros [E|[]]. apply Nc. left. exact E.
    + rewrite Forall_forall in *. intros q Hq. apply (freed_keep _ _ _ _ _ F1 (Hr' q Hq)). intros [E|[]]. apply Np. rewrite E. apply in_map, Hq.
    + constructor; [intros I; apply Nc; right; exact I|exact ND''].
    + replace (length (L0 ++ [p])) with (length L0 + 1) in E2 by (rewrite app_length; reflexivity).
      exists h2. split; [exact E2|]. apply (freed_trans h [fst p] h1 (map fst rest) h2 F1 F2).
Qed.
Lemma free_keywords_ok t rest : forall D0 h, nth_error h t = Some (Some (BTable (dcells (D0 ++ rest)))) -> Forall (dgood h) rest ->
  NoDup (t :: flat_map down rest) ->
  exists h', free_keywords h (Some t) (length D0) (length rest) = OK h' /\ freed h (flat_map down rest) h'.
Proof.
  induction rest as [|D rest IH]; intros D0 h Ht Hr ND.
  - exists h. split; [reflexivity|apply freed_nil].
  - inversion Hr as [|? ? HD Hr']; subst. cbn [flat_map] in ND. apply NoDup_cons_iff in ND. destruct ND as (Nt & ND').
    cbn [length free_keywords]. unfold m_keyword. rewrite (m_table_ok _ _ _ Ht). cbn [bind].
    unfold dcells at 1. rewrite !map_app. cbn [map].
    replace (aget (map Some (map dcell D0) ++ Some (dcell D) :: map Some (map dcell rest)) (length D0)) with (OK (Some (dcell D))).
    2:{ symmetry. apply aget_OK. rewrite nth_error_app2; rewrite !map_length; [|lia]. rewrite Nat.sub_diag. reflexivity. }
    cbn [bind m_init dcell m_name m_cards m_num].
    destruct HD as (Hn & Hc). destruct (m_free_ok h _ _ Hn) as (h1 & -> & F1). cbn [bind].
    assert (G : exists h2, (do h <- free_cards h1 (d_cards D) 0 (length (d_list D)); m_free_opt h (d_cards D)) = OK h2 /\ freed h (down D) h2).
    { unfold down in *. destruct (d_cards D) as [c|].
      - destruct Hc as (Hc & Hl). cbn [app] in ND'. inversion ND' as [|? ? N1 ND1]; subst. inversion ND1 as [|? ? N2 ND2]; subst.
        destruct (free_cards_ok c (d_list D) [] h1) as (h2 & E2 & F2).
        + apply (freed_keep _ _ _ _ _ F1 Hc). intros [E|[]]. apply N1. left. auto.
        + rewrite Forall_forall in *. intros q Hq. apply (freed_keep _ _ _ _ _ F1 (Hl q Hq)). intros [E|[]]. apply N1. rewrite E. right. apply in_or_app. left. apply in_map, Hq.
        + constructor; [intros I; apply N2, in_or_app; left; exact I|]. apply nodup_app in ND2. apply ND2.
        + cbn [length] in E2. rewrite E2. cbn [bind m_free_opt].
          assert (Hc2 : nth_error h2 c = Some (Some (BCards (map Some (map fst (d_list D)))))).
          { apply (freed_keep _ _ _ _ _ F2); [|intros I; apply N2, in_or_app; left; exact I]. apply (freed_keep _ _ _ _ _ F1 Hc). intros [E|[]]. apply N1. left. auto. }
          destruct (m_free_ok h2 c _ Hc2) as (h3 & -> & F3). exists h3. split; [reflexivity|].
          apply (freed_ext h ([d_name D] ++ map fst (d_list D) ++ [c])).
          * apply (freed_trans h _ h1 _ h3 F1). apply (freed_trans h1 _ h2 _ h3 F2 F3).
          * intros b. cbn [app In]. rewrite in_app_iff. cbn [In]. tauto.
      - rewrite Hc. cbn [length free_cards bind m_free_opt]. exists h1. split; [reflexivity|exact F1]. }
    destruct G as (h2 & E2 & F2).
    destruct (free_cards h1 (d_cards D) 0 (length (d_list D))) as [h1'| |]; [|discriminate E2|discriminate E2]. cbn [bind] in E2 |- *. rewrite E2. cbn [bind].
    assert (Sep : forall b, In b (down D) -> ~ In b (flat_map down rest)).
    { change (NoDup (down D ++ flat_map down rest)) in ND'. apply nodup_app in ND'. apply ND'. }
    destruct (IH (D0 ++ [D]) h2) as (h3 & E3 & F3).
    + rewrite <- app_assoc. cbn [app]. apply (freed_keep _ _ _ _ _ F2 Ht). intros I. apply Nt, in_or_app. auto.
    + rewrite Forall_forall in *. intros D' HD'. apply (dgood_frame h); [apply Hr', HD'|]. intros b Hb. destruct F2 as (_ & _ & K2). apply K2. intros I. apply (Sep b I). apply in_flat_map. exists D'. auto.
    + constructor; [intros I; apply Nt, in_or_app; auto|]. change (NoDup (down D ++ flat_map down rest)) in ND'. apply nodup_app in ND'. apply ND'.
    + replace (length (D0 ++ [D])) with (length D0 + 1) in E3 by (rewrite app_length; reflexivity).
      exists h3. split; [exact E3|]. cbn [flat_map]. apply (freed_trans h _ h2 _ h3 F2 F3).
Qed.

(** The table [tab] with the keywords [Ds]; the blocks it consists of. *)
Definition towns (tab : option nat) (Ds : list desc) : list nat := match tab with None => [] | Some t => t :: flat_map down Ds end.
Definition tgood (h : mheap) (tab : option nat) (Ds : list desc) : Prop :=
  match tab with
  | None => Ds = []
  | Some t => nth_error h t = Some (Some (BTable (dcells Ds)))
  end /\ Forall (dgood h) Ds /\ NoDup (towns tab Ds).
Lemma free_ok h tab Ds : tgood h tab Ds -> exists h', key_file_free h tab (length Ds) = OK h' /\ freed h (towns tab Ds) h'.
Proof.
  intros (Ht & Hg & ND). unfold key_file_free, towns in *. destruct tab as [t|].
  - destruct (free_keywords_ok t Ds [] h Ht Hg ND) as (h1 & E1 & F1). cbn [length] in E1. rewrite E1. cbn [bind m_free_opt].
    inversion ND as [|? ? Nt ND']; subst. destruct (m_free_ok h1 t _ (freed_keep _ _ _ _ _ F1 Ht Nt)) as (h2 & -> & F2).
    exists h2. split; [reflexivity|]. apply (freed_ext h (flat_map down Ds ++ [t])); [apply (freed_trans h _ h1 _ h2 F1 F2)|].
    intros b. rewrite in_app_iff. cbn [In]. tauto.
  - subst Ds. exists h. split; [reflexivity|apply freed_nil].
Qed.

(** ** The specification in terms of descriptions *)
Lemma somes_Some {A} (l : list A) : somes (map Some l) = l.
Proof. induction l as [|x l IH]; [reflexivity|]. unfold somes in *. cbn [map flat_map app]. rewrite IH. reflexivity. Qed.
Lemma down_blocks h D : dgood h D -> keyword_blocks h (dcell D) = down D.
Proof.
  intros (_ & Hc). unfold keyword_blocks, down. cbn [dcell m_name m_cards]. destruct (d_cards D) as [c|]; [|reflexivity].
  destruct Hc as (-> & _). rewrite somes_Some. reflexivity.
Qed.
Lemma towns_blocks h tab Ds : tgood h tab Ds -> table_blocks h tab = towns tab Ds.
Proof.
  intros (Ht & Hg & _). unfold table_blocks, towns. destruct tab as [t|]; [|reflexivity]. rewrite Ht. unfold dcells. rewrite somes_Some. f_equal.
  clear Ht. induction Hg as [|D Ds HD _ IH]; [reflexivity|]. cbn [map flat_map]. rewrite (down_blocks h D HD), IH. reflexivity.
Qed.
Lemma tgood_shows h tab Ds : tgood h tab Ds -> shows h tab (length Ds) (map dkw Ds).
Proof.
  intros (Ht & Hg & _). split; [rewrite map_length; reflexivity|]. destruct tab as [t|]; [|rewrite Ht; reflexivity].
  exists (map dcell Ds). split; [exact Ht|]. clear Ht. induction Hg as [|D Ds HD _ IH]; [constructor|]. constructor; [|exact IH].
  destruct HD as (Hn & Hc). split; [exact Hn|]. cbn [dcell dkw m_num m_cards kw_cards]. split; [rewrite map_length; reflexivity|].
  destruct (d_cards D) as [c|]; [|rewrite Hc; reflexivity]. destruct Hc as (Hc & Hl). exists (map fst (d_list D)). split; [exact Hc|].
  clear Hc. induction Hl as [|p l Hp _ IH']; [constructor|]. constructor; [exact Hp|exact IH'].
Qed.
Lemma shows_tgood h tab n ks : shows h tab n ks -> NoDup (table_blocks h tab) -> exists Ds, ks = map dkw Ds /\ n = length Ds /\ tgood h tab Ds.
Proof.
  intros (-> & Ht) ND. destruct tab as [t|].
  - destruct Ht as (cells & Ht & HF).
    assert (G : exists Ds, ks = map dkw Ds /\ cells = map dcell Ds /\ Forall (dgood h) Ds).
    { clear ND Ht. induction HF as [|k kw cells ks Hk _ (Ds & -> & -> & Hg)]; [exists []; repeat split; constructor|].
      destruct Hk as (Hn & Em & Hc). destruct k as [kn kc km], kw as [wn wc]. cbn [m_name m_cards m_num kw_name kw_cards] in *.
      destruct kc as [c|].
      - destruct Hc as (strings & Hc & HS).
        assert (G2 : exists l, strings = map fst l /\ wc = map snd l /\ Forall (fun p => shows_string h (fst p) (snd p)) l).
        { clear -HS. induction HS as [|x y xs ys Hxy _ (l & -> & -> & Hl)]; [exists []; repeat split; constructor|].
          exists ((x, y) :: l). repeat split. constructor; assumption. }
        destruct G2 as (l & -> & -> & Hl). exists ({| d_name := kn; d_text := wn; d_cards := Some c; d_list := l |} :: Ds).
        cbn [map]. unfold dkw at 2, dcell at 2. cbn. rewrite Em, map_length. repeat split. constructor; [|exact Hg]. split; [exact Hn|]. cbn [d_cards d_list]. auto.
      - subst wc. exists ({| d_name := kn; d_text := wn; d_cards := None; d_list := [] |} :: Ds).
        cbn [map]. unfold dkw at 2, dcell at 2. cbn. rewrite Em. repeat split. constructor; [|exact Hg]. split; [exact Hn|reflexivity]. }
    destruct G as (Ds & -> & -> & Hg). exists Ds. split; [reflexivity|]. split; [rewrite map_length; reflexivity|].
    assert (T : table_blocks h (Some t) = t :: flat_map down Ds).
    { cbn [table_blocks]. rewrite Ht, somes_Some. f_equal. clear -Hg. induction Hg as [|D Ds HD _ IH]; [reflexivity|]. cbn [map flat_map]. rewrite (down_blocks h D HD), IH. reflexivity. }
    rewrite T in ND. split; [exact Ht|]. split; [exact Hg|exact ND].
  - subst ks. exists []. split; [reflexivity|]. split; [reflexivity|]. split; [reflexivity|]. split; [constructor|constructor].
Qed.

(** ** Growing *)
Lemma owns_step lo h h' (o : option nat) X old new :
  Permutation old (match o with Some c => c :: X | None => X end) -> Permutation new (length h :: S (length h) :: X) ->
  NoDup old -> (forall b, In b old <-> lo <= b /\ allocated h b) -> lo <= length h ->
  length h' = S (S (length h)) -> allocated h' (length h) -> allocated h' (S (length h)) ->
  (match o with Some c => nth_error h' c = Some None | None => True end) ->
  (forall b, b < length h -> (match o with Some c => b <> c | None => True end) -> (allocated h' b <-> allocated h b)) ->
  NoDup new /\ forall b, In b new <-> lo <= b /\ allocated h' b.
Proof.
  intros Po Pn ND Own Lo L A1 A2 F K.
  assert (Lt : forall b, In b old -> b < length h).
  { intros b I. apply Own in I. destruct I as (_ & x & Ex). apply nth_error_Some_lt in Ex. exact Ex. }
  assert (InX : forall b, In b X -> In b old) by (intros b I; apply (Permutation_in b (Permutation_sym Po)); destruct o; [right|]; exact I).
  assert (NX : NoDup X /\ match o with Some c => ~ In c X | None => True end).
  { apply (Permutation_NoDup Po) in ND. destruct o as [c|]; [inversion ND; subst; auto|auto]. }
  destruct NX as (NX & No). split.
  - apply (Permutation_NoDup (Permutation_sym Pn)). constructor; [|constructor; [|exact NX]].
    + intros [E|I]; [lia|]. specialize (Lt _ (InX _ I)). lia.
    + intros I. specialize (Lt _ (InX _ I)). lia.
  - intros b. split.
    + intros I. apply (Permutation_in b Pn) in I. destruct I as [<- |[<- |I]]; [auto|split; [lia|auto]|].
      pose proof (Own b) as OB. destruct (proj1 OB (InX b I)) as (Lb & Ab). split; [exact Lb|]. apply K; [apply Lt, InX, I| |exact Ab].
      destruct o as [c|]; [|exact Logic.I]. intros ->. exact (No I).
    + intros (Lb & Ab). apply (Permutation_in b (Permutation_sym Pn)). cbn [In].
      assert (Bl : b < length h') by (destruct Ab as (x & Ex); apply nth_error_Some_lt in Ex; exact Ex).
      destruct (Nat.eq_dec b (length h)) as [-> |N1]; [auto|]. destruct (Nat.eq_dec b (S (length h))) as [-> |N2]; [auto|]. right. right.
      destruct o as [c|].
      * assert (Nc : b <> c) by (intros ->; destruct Ab as (x & Ex); congruence).
        apply K in Ab; [|lia|exact Nc]. assert (I : In b old) by (apply Own; auto). apply (Permutation_in b Po) in I. destruct I as [E|I]; [congruence|exact I].
      * apply K in Ab; [|lia|exact Logic.I]. assert (I : In b old) by (apply Own; auto). apply (Permutation_in b Po) in I. exact I.
Qed.

Lemma bsearch_insert_ext f g : (forall i, f i = g i) -> forall fuel s e, bsearch_insert_fuel fuel f s e = bsearch_insert_fuel fuel g s e.
Proof.
  intros E. induction fuel as [|fuel IH]; intros s e; [reflexivity|]. cbn [bsearch_insert_fuel].
  destruct (s =? e); [rewrite E; reflexivity|]. cbv zeta. rewrite E. destruct (g (s + (e - s) / 2)) as [v| |]; [|reflexivity|reflexivity]. cbn [bind]. rewrite !IH. reflexivity.
Qed.

(** The abstract table [a] and the table in memory [d]. *)
Definition trep (h0 : mheap) (d : mdata) (a : key_data) (Ds : list desc) : Prop :=
  kd_keywords a = map dkw Ds /\ kd_current a = md_current d /\ md_num d = length Ds /\ tgood (md_heap d) (md_table d) Ds /\
  keeps h0 (md_heap d) /\ (forall b, In b (towns (md_table d) Ds) <-> length h0 <= b /\ allocated (md_heap d) b) /\
  (md_table d <> None -> Ds <> []).

Lemma nth_dcells Ds i : nth_error (dcells Ds) i = option_map (fun D => Some (dcell D)) (nth_error Ds i).
Proof. unfold dcells. rewrite !nth_error_map. destruct (nth_error Ds i); reflexivity. Qed.
Lemma name_at_ok h t Ds i : tgood h (Some t) Ds -> m_name_at h t i = aget (map kw_name (map dkw Ds)) i.
Proof.
  intros (Ht & Hg & _). unfold m_name_at, m_keyword. rewrite (m_table_ok _ _ _ Ht). cbn [bind].
  destruct (nth_error Ds i) as [D|] eqn:E.
  - assert (E1 : aget (dcells Ds) i = OK (Some (dcell D))) by (apply aget_OK; rewrite nth_dcells, E; reflexivity). rewrite E1. cbn [bind m_init dcell m_name].
    apply nth_error_In in E as I. rewrite Forall_forall in Hg. destruct (Hg D I) as (Hn & _). rewrite (m_string_ok _ _ _ Hn).
    symmetry. apply aget_OK. rewrite !nth_error_map, E. reflexivity.
  - apply nth_error_None in E. rewrite !aget_UB; [reflexivity|rewrite !map_length; lia|unfold dcells; rewrite !map_length; lia].
Qed.
Lemma position_ok h0 d a Ds name : trep h0 d a Ds -> m_position d name = keyword_position (kd_keywords a) name.
Proof.
  intros (Ea & _ & Hn & Hg & _ & _ & Hne). rewrite Ea. unfold m_position, keyword_position. destruct (md_table d) as [t|].
  - destruct Ds as [|D Ds']; [exfalso; apply Hne; [discriminate|reflexivity]|]. set (Ds := D :: Ds') in *.
    assert (N : forall i, m_name_at (md_heap d) t i = aget (map kw_name (map dkw Ds)) i) by (intros i; apply name_at_ok, Hg).
    change (map dkw Ds) with (dkw D :: map dkw Ds') at 1. cbv iota. unfold key_file_binary_search_insert, bsearch_insert.
    rewrite Hn. replace (length (map dkw Ds)) with (length Ds) by (rewrite map_length; reflexivity).
    rewrite (bsearch_insert_ext _ (fun i => do x <- aget (map kw_name (map dkw Ds)) i; OK (strcmp name x))) by (intros i; rewrite N; reflexivity).
    destruct (bsearch_insert_fuel _ _ _ _) as [[i f]| |]; [|reflexivity|reflexivity]. cbn [bind]. destruct f; [|reflexivity].
    destruct (negb (i + 1 =? length Ds)); [|reflexivity].
    generalize (i + 1). generalize (S (length Ds)). intros fuel. induction fuel as [|fuel IH]; intros j; [reflexivity|]. cbn [m_skip_equal skip_equal]. rewrite N.
    destruct (aget (map kw_name (map dkw Ds)) j) as [x| |]; [|reflexivity|reflexivity]. cbn [bind]. destruct (strcmp x name =? 0)%Z; [apply IH|reflexivity].
  - destruct Hg as (-> & _). reflexivity.
Qed.

Lemma dgood_keep h h' (X : list nat) D : dgood h D -> (forall b, b < length h -> ~ In b X -> nth_error h' b = nth_error h b) -> (forall b, In b (down D) -> ~ In b X) -> dgood h' D.
Proof.
  intros HD K N. apply (dgood_frame h); [exact HD|]. intros b Hb. apply K; [|apply N, Hb].
  destruct HD as (Hn & Hc). unfold down in Hb. destruct Hb as [<- |Hb]; [apply nth_error_Some_lt in Hn; exact Hn|].
  destruct (d_cards D) as [c|]; [|destruct Hb]. destruct Hc as (Hc & Hl). destruct Hb as [<- |Hb]; [apply nth_error_Some_lt in Hc; exact Hc|].
  apply in_map_iff in Hb. destruct Hb as (p & <- & Hp). rewrite Forall_forall in Hl. specialize (Hl p Hp). apply nth_error_Some_lt in Hl. exact Hl.
Qed.

Lemma realloc_table_ok d a Ds h0 : trep h0 d a Ds -> exists h1, realloc_table (md_heap d) (md_table d) = OK (h1, length (md_heap d)) /\
  length h1 = S (length (md_heap d)) /\ nth_error h1 (length (md_heap d)) = Some (Some (BTable (dcells Ds ++ [None]))) /\
  (match md_table d with Some t => nth_error h1 t = Some None | None => True end) /\
  forall b, b < length (md_heap d) -> (match md_table d with Some t => b <> t | None => True end) -> nth_error h1 b = nth_error (md_heap d) b.
Proof.
  intros (_ & _ & _ & Hg & _). unfold realloc_table. destruct Hg as (Ht & _). destruct (md_table d) as [t|].
  - rewrite (m_table_ok _ _ _ Ht). cbn [bind m_malloc]. pose proof (nth_error_Some_lt _ _ _ Ht) as Lt.
    assert (E : nth_error (md_heap d ++ [Some (BTable (dcells Ds ++ [None]))]) t = Some (Some (BTable (dcells Ds)))) by (rewrite nth_error_app1 by exact Lt; exact Ht).
    destruct (m_free_ok _ _ _ E) as (h1 & -> & (L & F & K)). cbn [bind]. exists h1. split; [reflexivity|]. split; [rewrite L, app_length; cbn; lia|].
    split; [rewrite K by (intros [E2|[]]; lia); rewrite nth_error_app2, Nat.sub_diag by lia; reflexivity|].
    split; [apply F; left; reflexivity|]. intros b Lb Nb. rewrite K by (intros [E2|[]]; congruence). apply nth_error_app1, Lb.
  - cbn [m_malloc]. eexists. split; [reflexivity|]. split; [rewrite app_length; cbn; lia|]. split; [rewrite nth_error_app2, Nat.sub_diag by lia; rewrite Ht; reflexivity|].
    split; [exact I|]. intros b Lb _. apply nth_error_app1, Lb.
Qed.

Lemma alloc_nth h b x : nth_error h b = Some (Some x) -> allocated h b.
Proof. intros E. exists x. exact E. Qed.

Lemma insert_ok h0 d a Ds name : trep h0 d a Ds ->
  match (do index <- keyword_position (kd_keywords a) name;
         let num := length (kd_keywords a) + 1 in
         let arr := kd_keywords a ++ [{| kw_name := [JUNK]; kw_cards := [] |}] in
         do arr <- shift_right (num - 1 - index) arr (num - 1);
         do arr <- aset arr index {| kw_name := name; kw_cards := [] |};
         OK {| kd_keywords := arr; kd_current := Some index |}) with
  | OK a' => exists d' Ds', m_insert d name = OK d' /\ trep h0 d' a' Ds'
  | UB => m_insert d name = UB
  | OOF => m_insert d name = OOF
  end.
Proof.
  intros R. unfold m_insert. rewrite (position_ok h0 d a Ds name R). destruct (keyword_position (kd_keywords a) name) as [index| |]; [|reflexivity|reflexivity].
  cbn [bind]. cbv zeta. destruct (realloc_table_ok d a Ds h0 R) as (h1 & -> & L1 & T1 & F1 & K1). cbn [bind]. rewrite (m_table_ok _ _ _ T1). cbn [bind].
  destruct R as (Ea & Ec & Hn & Hg & Hk & Own & Hne). rewrite Ea, Hn. replace (length (map dkw Ds)) with (length Ds) by (rewrite map_length; reflexivity).
  replace (length Ds + 1 - 1) with (length Ds) by lia.
  destruct (Nat.le_gt_cases index (length Ds)) as [Li|Li].
  - assert (LD : length (map dkw Ds) = length Ds) by apply map_length. assert (LC : length (dcells Ds) = length Ds) by (unfold dcells; rewrite !map_length; reflexivity).
    pose proof (insert_at_spec (map dkw Ds) {| kw_name := [JUNK]; kw_cards := [] |} {| kw_name := name; kw_cards := [] |} index ltac:(lia)) as EA. rewrite LD in EA.
    destruct (shift_right (length Ds - index) (map dkw Ds ++ _) (length Ds)) as [arr| |]; [|discriminate EA|discriminate EA]. cbn [bind] in EA |- *. rewrite EA. cbn [bind].
    set (D := {| d_name := length h1; d_text := name; d_cards := None; d_list := [] |}).
    pose proof (insert_at_spec (dcells Ds) None (Some (dcell D)) index ltac:(lia)) as EC. rewrite LC in EC.
    destruct (shift_right (length Ds - index) (dcells Ds ++ _) (length Ds)) as [cells| |]; [|discriminate EC|discriminate EC]. cbn [bind] in EC |- *.
    cbn [m_malloc]. change (Some {| m_name := length h1; m_cards := None; m_num := 0 |}) with (Some (dcell D)). rewrite EC. cbn [bind].
    set (Ds' := firstn index Ds ++ D :: skipn index Ds).
    assert (EC' : firstn index (dcells Ds) ++ Some (dcell D) :: skipn index (dcells Ds) = dcells Ds').
    { unfold dcells, Ds'. rewrite !firstn_map, !skipn_map, !map_app. reflexivity. }
    rewrite EC'. set (h := md_heap d) in *.
    destruct (aset_at (h1 ++ [Some (BStr name)]) (length h) (Some (BTable (dcells Ds')))) as (h2 & -> & L2 & N2); [rewrite app_length; lia|]. cbn [bind].
    rewrite app_length in L2. cbn [length] in L2.
    assert (T2 : nth_error h2 (length h) = Some (Some (BTable (dcells Ds')))) by (rewrite N2, Nat.eqb_refl; reflexivity).
    assert (S2 : nth_error h2 (S (length h)) = Some (Some (BStr name))).
    { rewrite N2. destruct (Nat.eqb_spec (S (length h)) (length h)); [lia|]. rewrite nth_last, L1, Nat.eqb_refl. reflexivity. }
    assert (F2 : match md_table d with Some t => nth_error h2 t = Some None | None => True end).
    { destruct (md_table d) as [t|]; [|exact I]. rewrite N2, nth_last, L1. destruct Hg as (Ht & _). apply nth_error_Some_lt in Ht.
      destruct (Nat.eqb_spec t (length h)); [lia|]. destruct (Nat.eqb_spec t (S (length h))); [lia|]. exact F1. }
    assert (K2 : forall b, b < length h -> (match md_table d with Some t => b <> t | None => True end) -> nth_error h2 b = nth_error h b).
    { intros b Lb Nb. rewrite N2, nth_last, L1. destruct (Nat.eqb_spec b (length h)); [lia|]. destruct (Nat.eqb_spec b (S (length h))); [lia|]. apply K1; assumption. }
    assert (Pm : Permutation (flat_map down Ds') (S (length h) :: flat_map down Ds)).
    { unfold Ds'. rewrite flat_map_app. cbn [flat_map down D d_name d_cards app]. rewrite L1. rewrite <- (firstn_skipn index Ds) at 3. rewrite flat_map_app.
      apply Permutation_sym, Permutation_middle. }
    destruct (owns_step (length h0) h h2 (md_table d) (flat_map down Ds) (towns (md_table d) Ds) (towns (Some (length h)) Ds')) as (ND' & Own').
    + destruct Hg as (Ht & _). unfold towns. destruct (md_table d); [apply Permutation_refl|]. subst Ds. apply Permutation_refl.
    + cbn [towns]. apply perm_skip, Pm.
    + apply Hg.
    + exact Own.
    + apply Hk.
    + lia.
    + apply (alloc_nth _ _ _ T2).
    + apply (alloc_nth _ _ _ S2).
    + exact F2.
    + intros b Lb Nb. unfold allocated. rewrite K2 by assumption. reflexivity.
    + eexists _, Ds'. split; [reflexivity|]. unfold trep. cbn [kd_keywords kd_current md_heap md_table md_num md_current].
      split; [unfold Ds'; rewrite map_app; cbn [map]; rewrite firstn_map, skipn_map; reflexivity|]. split; [reflexivity|].
      split; [unfold Ds'; rewrite app_length; cbn [length]; rewrite firstn_length, skipn_length; lia|].
      split; [|split; [|split; [exact Own'|intros _ E; unfold Ds' in E; destruct (firstn index Ds); discriminate E]]].
      * split; [exact T2|]. split; [|exact ND'].
        assert (G : Forall (dgood h2) Ds).
        { destruct Hg as (Ht & Hg & ND). rewrite Forall_forall in *. intros E IE. apply (dgood_keep h h2 (match md_table d with Some t => [t] | None => [] end)); [apply Hg, IE| |].
          - intros b Lb Nb. apply K2; [exact Lb|]. destruct (md_table d) as [t|]; [|exact I]. intros ->. apply Nb. left. reflexivity.
          - intros b Hb Ib. destruct (md_table d) as [t|]; [|destruct Ib]. destruct Ib as [<- |[]]. cbn [towns] in ND. apply NoDup_cons_iff in ND. apply ND. apply in_flat_map. exists E. auto. }
        unfold Ds'. rewrite <- (firstn_skipn index Ds) in G. apply Forall_app in G. apply Forall_app. split; [apply G|]. constructor; [|apply G].
        split; [|reflexivity]. unfold shows_string. cbn [D d_name d_text]. rewrite L1. exact S2.
      * destruct Hk as (Lh & Kh). split; [lia|]. intros b Lb. rewrite K2; [apply Kh, Lb|lia|]. destruct (md_table d) as [t|]; [|exact I].
        intros ->. assert (In t (towns (Some t) Ds)) as It by (left; reflexivity). apply Own in It. lia.
  - replace (length Ds - index) with 0 by lia. cbn [shift_right bind]. cbn [m_malloc].
    rewrite (aset_UB (map dkw Ds ++ _)) by (rewrite app_length, map_length; cbn; lia). cbn [bind].
    rewrite aset_UB by (unfold dcells; rewrite app_length, !map_length; cbn; lia). reflexivity.
Qed.

Lemma realloc_cards_ok h D : dgood h D -> exists h1, realloc_cards h (d_cards D) = OK (h1, length h) /\
  length h1 = S (length h) /\ nth_error h1 (length h) = Some (Some (BCards (map Some (map fst (d_list D)) ++ [None]))) /\
  (match d_cards D with Some t => t < length h /\ nth_error h1 t = Some None | None => True end) /\
  forall b, b < length h -> (match d_cards D with Some t => b <> t | None => True end) -> nth_error h1 b = nth_error h b.
Proof.
  intros (_ & Hc). unfold realloc_cards. destruct (d_cards D) as [t|].
  - destruct Hc as (Ht & _). rewrite (m_cards_ok _ _ _ Ht). cbn [bind m_malloc]. pose proof (nth_error_Some_lt _ _ _ Ht) as Lt.
    assert (E : nth_error (h ++ [Some (BCards (map Some (map fst (d_list D)) ++ [None]))]) t = Some (Some (BCards (map Some (map fst (d_list D)))))) by (rewrite nth_error_app1 by exact Lt; exact Ht).
    destruct (m_free_ok _ _ _ E) as (h1 & -> & (L & F & K)). cbn [bind]. exists h1. split; [reflexivity|]. split; [rewrite L, app_length; cbn; lia|].
    split; [rewrite K by (intros [E2|[]]; lia); rewrite nth_error_app2, Nat.sub_diag by lia; reflexivity|].
    split; [split; [exact Lt|apply F; left; reflexivity]|]. intros b Lb Nb. rewrite K by (intros [E2|[]]; congruence). apply nth_error_app1, Lb.
  - cbn [m_malloc]. eexists. split; [reflexivity|]. split; [rewrite app_length; cbn; lia|]. split; [rewrite nth_error_app2, Nat.sub_diag by lia; rewrite Hc; reflexivity|].
    split; [exact I|]. intros b Lb _. apply nth_error_app1, Lb.
Qed.

Lemma add_card_ok h0 d a Ds k card : trep h0 d a Ds ->
  match (do kw <- aget (kd_keywords a) k;
         do arr <- aset (kd_keywords a) k {| kw_name := kw_name kw; kw_cards := kw_cards kw ++ [card] |};
         OK {| kd_keywords := arr; kd_current := kd_current a |}) with
  | OK a' => exists d' Ds', m_add_card d k card = OK d' /\ trep h0 d' a' Ds'
  | UB => m_add_card d k card = UB
  | OOF => m_add_card d k card = OOF
  end.
Proof.
  intros (Ea & Ec & Hn & Hg & Hk & Own & Hne). rewrite Ea. unfold m_add_card. destruct (md_table d) as [t|].
  2:{ destruct Hg as (-> & _). cbn [map]. rewrite aget_UB by (cbn; lia). reflexivity. }
  destruct Hg as (Ht & Hg & ND). set (h := md_heap d) in *. unfold m_keyword. rewrite (m_table_ok _ _ _ Ht). cbn [bind].
  destruct (Nat.le_gt_cases (length Ds) k) as [Lk|Lk].
  { rewrite !aget_UB; [reflexivity|unfold dcells; rewrite !map_length; lia|rewrite map_length; lia]. }
  destruct (nth_error Ds k) as [D|] eqn:ED; [|apply nth_error_None in ED; lia].
  assert (E1 : aget (dcells Ds) k = OK (Some (dcell D))) by (apply aget_OK; rewrite nth_dcells, ED; reflexivity). rewrite E1. cbn [bind m_init].
  assert (E2 : aget (map dkw Ds) k = OK (dkw D)) by (apply aget_OK; rewrite nth_error_map, ED; reflexivity). rewrite E2. cbn [bind dkw kw_name kw_cards].
  destruct (nth_error_split _ _ ED) as (A & B & EDs & LA).
  assert (HD : dgood h D) by (rewrite Forall_forall in Hg; apply Hg; rewrite EDs; apply in_or_app; right; left; reflexivity).
  cbn [dcell m_cards m_num m_name]. destruct (realloc_cards_ok h D HD) as (h1 & -> & L1 & C1 & F1 & K1). cbn [bind m_malloc].
  assert (C2 : nth_error (h1 ++ [Some (BStr card)]) (length h) = Some (Some (BCards (map Some (map fst (d_list D)) ++ [None])))) by (rewrite nth_error_app1 by lia; exact C1).
  rewrite (m_cards_ok _ _ _ C2). cbn [bind]. replace (length (d_list D) + 1 - 1) with (length (map Some (map fst (d_list D)))) by (rewrite !map_length; lia).
  rewrite aset_mid. cbn [bind]. rewrite L1.
  set (D' := {| d_name := d_name D; d_text := d_text D; d_cards := Some (length h); d_list := d_list D ++ [(S (length h), card)] |}).
  replace (map Some (map fst (d_list D)) ++ [Some (S (length h))]) with (map Some (map fst (d_list D'))) by (cbn [D' d_list]; rewrite !map_app; reflexivity).
  destruct (aset_at (h1 ++ [Some (BStr card)]) (length h) (Some (BCards (map Some (map fst (d_list D')))))) as (h2 & -> & L2 & N2); [rewrite app_length; lia|]. cbn [bind].
  rewrite app_length in L2. cbn [length] in L2.
  cbn [towns] in ND, Own.
  assert (Pd : Permutation (flat_map down Ds) (down D ++ flat_map down A ++ flat_map down B)).
  { rewrite EDs, flat_map_app. cbn [flat_map]. rewrite !app_assoc. apply Permutation_app_tail, Permutation_app_comm. }
  assert (Pt : match d_cards D with Some c => t <> c | None => True end).
  { destruct (d_cards D) as [c|] eqn:Edc; [|exact I]. intros <-. apply NoDup_cons_iff in ND. apply ND. apply (Permutation_in _ (Permutation_sym Pd)). apply in_or_app. left.
    unfold down. rewrite Edc. right. left. reflexivity. }
  pose proof (nth_error_Some_lt _ _ _ Ht) as Lt.
  assert (K2 : forall b, b < length h -> (match d_cards D with Some c => b <> c | None => True end) -> nth_error h2 b = nth_error h b).
  { intros b Lb Nb. rewrite N2, nth_last, L1. destruct (Nat.eqb_spec b (length h)); [lia|]. destruct (Nat.eqb_spec b (S (length h))); [lia|]. apply K1; assumption. }
  assert (Ht2 : nth_error h2 t = Some (Some (BTable (dcells Ds)))) by (rewrite K2 by assumption; exact Ht).
  rewrite (m_table_ok _ _ _ Ht2). cbn [bind].
  set (Ds' := A ++ D' :: B).
  assert (EC : aset (dcells Ds) k (Some {| m_name := d_name D; m_cards := Some (length h); m_num := length (d_list D) + 1 |}) = OK (dcells Ds')).
  { rewrite EDs. unfold dcells. rewrite !map_app. cbn [map]. rewrite <- LA. replace (length A) with (length (map Some (map dcell A))) by (rewrite !map_length; reflexivity).
    rewrite aset_mid. unfold Ds'. rewrite !map_app. cbn [map]. unfold dcell at 4. cbn [D' d_name d_cards d_list]. rewrite app_length. reflexivity. }
  rewrite EC. cbn [bind].
  assert (EK : aset (map dkw Ds) k {| kw_name := d_text D; kw_cards := map snd (d_list D) ++ [card] |} = OK (map dkw Ds')).
  { rewrite EDs. rewrite map_app. cbn [map]. rewrite <- LA. replace (length A) with (length (map dkw A)) by apply map_length.
    rewrite aset_mid. unfold Ds'. rewrite map_app. cbn [map]. unfold dkw at 4. cbn [D' d_text d_list]. rewrite map_app. reflexivity. }
  rewrite EK. cbn [bind].
  destruct (aset_at h2 t (Some (BTable (dcells Ds'))) ltac:(lia)) as (h3 & -> & L3 & N3). cbn [bind].
  assert (T3 : nth_error h3 t = Some (Some (BTable (dcells Ds')))) by (rewrite N3, Nat.eqb_refl; reflexivity).
  assert (C3 : nth_error h3 (length h) = Some (Some (BCards (map Some (map fst (d_list D')))))).
  { rewrite N3. destruct (Nat.eqb_spec (length h) t); [lia|]. rewrite N2, Nat.eqb_refl. reflexivity. }
  assert (S3 : nth_error h3 (S (length h)) = Some (Some (BStr card))).
  { rewrite N3. destruct (Nat.eqb_spec (S (length h)) t); [lia|]. rewrite N2. destruct (Nat.eqb_spec (S (length h)) (length h)); [lia|]. rewrite nth_last, L1, Nat.eqb_refl. reflexivity. }
  assert (F3 : match d_cards D with Some c => nth_error h3 c = Some None | None => True end).
  { destruct (d_cards D) as [c|]; [|exact I]. destruct F1 as (Lc & F1). rewrite N3. destruct (Nat.eqb_spec c t); [congruence|]. rewrite N2, nth_last, L1.
    destruct (Nat.eqb_spec c (length h)); [lia|]. destruct (Nat.eqb_spec c (S (length h))); [lia|]. exact F1. }
  assert (K3 : forall b, b < length h -> b <> t -> (match d_cards D with Some c => b <> c | None => True end) -> nth_error h3 b = nth_error h b).
  { intros b Lb Nt Nb. rewrite N3. destruct (Nat.eqb_spec b t); [congruence|]. apply K2; assumption. }
  assert (Pd' : Permutation (flat_map down Ds') (down D' ++ flat_map down A ++ flat_map down B)).
  { unfold Ds'. rewrite flat_map_app. cbn [flat_map]. rewrite !app_assoc. apply Permutation_app_tail, Permutation_app_comm. }
  set (R := flat_map down A ++ flat_map down B) in *.
  destruct (owns_step (length h0) h h3 (d_cards D) (t :: d_name D :: map fst (d_list D) ++ R) (t :: flat_map down Ds) (t :: flat_map down Ds')) as (ND' & Own').
  - destruct HD as (_ & Hc). assert (Edn : down D = d_name D :: match d_cards D with None => [] | Some c => c :: map fst (d_list D) end) by reflexivity. rewrite Edn in Pd. clear Edn.
    destruct (d_cards D) as [c|].
    + eapply perm_trans; [apply perm_skip, Pd|]. cbn [app]. eapply perm_trans; [|apply perm_swap]. apply perm_skip, perm_swap.
    + rewrite Hc. cbn [map app]. apply perm_skip, Pd.
  - eapply perm_trans; [apply perm_skip, Pd'|]. unfold down at 1. cbn [D' d_name d_cards d_list app]. rewrite map_app. cbn [map fst].
    set (L := map fst (d_list D)). set (n := d_name D). set (x := length h). set (y := S (length h)).
    eapply (perm_trans (l' := t :: n :: x :: y :: L ++ R)).
    + do 3 apply perm_skip. rewrite <- app_assoc. apply Permutation_sym, Permutation_middle.
    + apply (Permutation_app_tail (L ++ R) (l := [t; n; x; y]) (l' := [x; y; t; n])). apply (Permutation_app_comm [t; n] [x; y]).
  - exact ND.
  - exact Own.
  - apply Hk.
  - lia.
  - apply (alloc_nth _ _ _ C3).
  - apply (alloc_nth _ _ _ S3).
  - exact F3.
  - intros b Lb Nb. destruct (Nat.eq_dec b t) as [-> |Nt].
    + split; intros _; [apply (alloc_nth _ _ _ Ht)|apply (alloc_nth _ _ _ T3)].
    + unfold allocated. rewrite K3 by assumption. reflexivity.
  - assert (Nd : NoDup (down D ++ R)).
    { apply NoDup_cons_iff in ND. destruct ND as (_ & ND). apply (Permutation_NoDup Pd ND). }
    assert (Ntd : ~ In t (flat_map down Ds)) by (apply NoDup_cons_iff in ND; apply ND).
    eexists _, Ds'. split; [reflexivity|]. unfold trep. cbn [kd_keywords kd_current md_heap md_table md_num md_current].
    split; [reflexivity|]. split; [exact Ec|]. split; [rewrite Hn, EDs; unfold Ds'; rewrite !app_length; reflexivity|].
    split; [|split; [|split; [exact Own'|intros _ E; unfold Ds' in E; destruct A; discriminate E]]].
    + split; [exact T3|]. split; [|exact ND'].
      assert (G : forall E, In E Ds -> In E (A ++ B) -> dgood h3 E).
      { intros E IE IAB. rewrite Forall_forall in Hg. apply (dgood_keep h h3 (t :: match d_cards D with Some c => [c] | None => [] end)); [apply Hg, IE| |].
        - intros b Lb Nb. apply K3; [exact Lb|intros ->; apply Nb; left; reflexivity|]. destruct (d_cards D) as [c|]; [|exact I]. intros ->. apply Nb. right. left. reflexivity.
        - intros b Hb [<- |Ib].
          + apply Ntd. apply in_flat_map. exists E. auto.
          + destruct (d_cards D) as [c|] eqn:Edc; [|destruct Ib]. destruct Ib as [<- |[]]. apply nodup_app in Nd. destruct Nd as (_ & _ & Nd). apply (Nd c).
            * unfold down. rewrite Edc. right. left. reflexivity.
            * unfold R. rewrite <- flat_map_app. apply in_flat_map. exists E. auto. }
      apply Forall_forall. intros E IE. unfold Ds' in IE. apply in_app_or in IE. destruct IE as [IA|[<- |IB]].
      * apply G; [rewrite EDs|]; apply in_or_app; auto.
      * destruct HD as (Hn' & Hc).
        assert (Keep : forall b, In b (d_name D :: match d_cards D with Some _ => map fst (d_list D) | None => [] end) -> b < length h -> nth_error h3 b = nth_error h b).
        { intros b Hb Lb. apply K3; [exact Lb| |].
          - intros ->. apply Ntd. apply in_flat_map. exists D. split; [rewrite EDs; apply in_or_app; right; left; reflexivity|]. unfold down.
            destruct Hb as [E|Hb]; [left; exact E|]. destruct (d_cards D); [right; right; exact Hb|destruct Hb].
          - destruct (d_cards D) as [c|] eqn:Edc; [|exact I]. intros ->. unfold down in Nd. rewrite Edc in Nd. cbn [app] in Nd. inversion Nd as [|? ? M1 M2]; subst.
            inversion M2 as [|? ? M3 M4]; subst. destruct Hb as [E|Hb]; [apply M1; left; auto|]. apply M3, in_or_app. left. exact Hb. }
        split.
        -- unfold shows_string. cbn [D' d_name d_text]. rewrite Keep; [exact Hn'|left; reflexivity|apply nth_error_Some_lt in Hn'; exact Hn'].
        -- cbn [D' d_cards]. split; [exact C3|]. cbn [d_list]. apply Forall_app. split; [|constructor; [exact S3|constructor]].
           destruct (d_cards D) as [c|]; [|rewrite Hc; constructor]. destruct Hc as (_ & Hl). rewrite Forall_forall in *. intros p Hp. specialize (Hl p Hp). unfold shows_string.
           rewrite Keep; [exact Hl|right; apply in_map, Hp|apply nth_error_Some_lt in Hl; exact Hl].
      * apply G; [rewrite EDs; apply in_or_app; right; right; exact IB|]; apply in_or_app; auto.
    + destruct Hk as (Lh & Kh). split; [lia|]. intros b Lb. rewrite K3; [apply Kh, Lb|lia| |].
      * intros ->. assert (In t (t :: flat_map down Ds)) as It by (left; reflexivity). apply Own in It. lia.
      * destruct (d_cards D) as [c|] eqn:Edc; [|exact I]. intros ->. assert (In c (t :: flat_map down Ds)) as It; [|apply Own in It; lia].
        right. apply (Permutation_in _ (Permutation_sym Pd)). apply in_or_app. left. unfold down. rewrite Edc. right. left. reflexivity.
Qed.

Lemma callback_ok h0 d a Ds name card i : trep h0 d a Ds ->
  match key_file_parse_callback a name card i with
  | OK a' => exists d' Ds', m_callback d name card i = OK d' /\ trep h0 d' a' Ds'
  | UB => m_callback d name card i = UB
  | OOF => m_callback d name card i = OOF
  end.
Proof.
  intros R. unfold key_file_parse_callback, m_callback. destruct R as (Ea & Ec & Rest). rewrite <- Ec. pose proof (conj Ea (conj Ec Rest)) as R. fold (trep h0 d a Ds) in R.
  set (fresh := match kd_current a with Some _ => _ | None => _ end). clearbody fresh.
  assert (G : forall d' a' Ds', trep h0 d' a' Ds' ->
     match (match card, kd_current a' with
            | Some c, Some k => do kw <- aget (kd_keywords a') k; do arr <- aset (kd_keywords a') k {| kw_name := kw_name kw; kw_cards := kw_cards kw ++ [c] |}; OK {| kd_keywords := arr; kd_current := kd_current a' |}
            | _, _ => OK a' end) with
     | OK a'' => exists d'' Ds'', match card, md_current d' with Some c, Some k => m_add_card d' k c | _, _ => OK d' end = OK d'' /\ trep h0 d'' a'' Ds''
     | UB => match card, md_current d' with Some c, Some k => m_add_card d' k c | _, _ => OK d' end = UB
     | OOF => match card, md_current d' with Some c, Some k => m_add_card d' k c | _, _ => OK d' end = OOF
     end).
  { intros d' a' Ds' R'. destruct card as [c|]; [|exists d', Ds'; auto].
    pose proof R' as (_ & Ec' & _). rewrite <- Ec'. destruct (kd_current a') as [k|] eqn:Ek; [|exists d', Ds'; auto].
    pose proof (add_card_ok h0 d' a' Ds' k c R') as H. rewrite Ek in H. exact H. }
  destruct fresh; [|apply (G d a Ds R)]. pose proof (insert_ok h0 d a Ds name R) as IO.
  match type of IO with match ?X with _ => _ end => destruct X as [a'| |] end; [|rewrite IO; reflexivity|rewrite IO; reflexivity].
  destruct IO as (d' & Ds' & -> & R'). cbn [bind]. apply (G d' a' Ds' R').
Qed.

Lemma run_ok h0 evs : forall d a Ds, trep h0 d a Ds ->
  match key_run a evs with
  | OK ks => exists d' Ds', m_run d evs = OK d' /\ ks = map dkw Ds' /\ md_num d' = length Ds' /\ tgood (md_heap d') (md_table d') Ds' /\
      keeps h0 (md_heap d') /\ (forall b, In b (towns (md_table d') Ds') <-> length h0 <= b /\ allocated (md_heap d') b)
  | UB => m_run d evs = UB
  | OOF => m_run d evs = OOF
  end.
Proof.
  induction evs as [|[[name card] i] evs IH]; intros d a Ds R.
  - cbn [key_run m_run]. exists d, Ds. split; [reflexivity|]. destruct R as (Ea & _ & Hn & Hg & Hk & Own & _). auto 8.
  - cbn [key_run m_run]. pose proof (callback_ok h0 d a Ds name card i R) as C. destruct (key_file_parse_callback a name card i) as [a'| |]; [|rewrite C; reflexivity|rewrite C; reflexivity].
    destruct C as (d' & Ds' & -> & R'). cbn [bind]. apply (IH d' a' Ds' R').
Qed.

Lemma start_ok h : trep h {| md_heap := h; md_table := None; md_num := 0; md_current := None |} {| kd_keywords := []; kd_current := None |} [].
Proof.
  unfold trep. cbn. split; [reflexivity|]. split; [reflexivity|]. split; [reflexivity|]. split; [split; [reflexivity|split; constructor]|].
  split; [split; [lia|reflexivity]|]. split; [|intros E; destruct (E eq_refl)]. intros b. split; [intros []|]. intros (Lb & x & Ex). apply nth_error_Some_lt in Ex. lia.
Qed.
