(** * Proofs about the memory of readers *)
From Coq Require Import Sorting.Permutation.
From Verif Require D3PartProofs.
From Verif Require Import CBase CBaseFacts SearchModel BinModel D3BufModel D3Model D3ReadModel D3PartModel CppArrayModel OwnModel KeyMemProofs ReadMemModel ReadMemSpec.
Import D3PartProofs(insert_into_cases).
Open Scope nat_scope.

Lemma blocks_app ps qs : blocks (ps ++ qs) = blocks ps ++ blocks qs.
Proof. induction ps as [|[p|] ps IH]; cbn [blocks app]; [reflexivity|rewrite IH; reflexivity|exact IH]. Qed.
Lemma blocks_perm ps qs : Permutation ps qs -> Permutation (blocks ps) (blocks qs).
Proof. induction 1 as [|[p|] ps qs _ IH|[p|] [q|] ps|ps qs rs _ IH1 _ IH2]; cbn [blocks]; auto. - apply perm_swap. - eapply perm_trans; eauto. Qed.
Lemma leaves_perm h h' ps qs : Permutation ps qs -> leaves h h' ps -> leaves h h' qs.
Proof.
  intros P (A & B & C & D & E). pose proof (blocks_perm _ _ P) as Q. split; [exact A|]. split; [intros k Hk; rewrite (B k Hk); split; apply Permutation_in; [exact Q|apply Permutation_sym, Q]|].
  split; [intros k I; apply C; exact (Permutation_in k (Permutation_sym Q) I)|]. split; [eapply Permutation_NoDup; eassumption|]. intros p I. apply E. exact (Permutation_in _ (Permutation_sym P) I).
Qed.
Lemma leaves_refl h : leaves h h [].
Proof. split; [reflexivity|]. split; [|split; [intros k []|split; [constructor|intros p []]]]. intros k Hk. split; [intros (c & E)|intros []]. rewrite (proj2 (nth_error_None h k) Hk) in E. discriminate. Qed.
Lemma leaves_none h h' ps : leaves h h' ps <-> leaves h h' (None :: ps).
Proof. unfold leaves. cbn [blocks]. split; intros (A & B & C & D & E); repeat (split; [assumption|]); intros p; [intros [I|I]; [discriminate|exact (E p I)]|intros I; apply E; right; exact I]. Qed.
Lemma leaves_len h h' ps : leaves h h' ps -> length h <= length h'.
Proof. intros (A & _). destruct (length h) as [|n] eqn:L; [lia|]. specialize (A n ltac:(lia)). assert (nth_error h n <> None) by (apply nth_error_Some; lia). rewrite <- A in H. apply nth_error_Some in H. lia. Qed.
Lemma alive_len h k : alive h k -> k < length h.
Proof. intros (c & E). apply nth_error_Some. congruence. Qed.
Lemma leaves_malloc h h' ps c : leaves h h' ps -> leaves h (fst (h_malloc h' c)) (Some (snd (h_malloc h' c)) :: ps).
Proof.
  intros L. pose proof (leaves_len _ _ _ L) as Ln. destruct L as (A & B & C & D & E). unfold h_malloc. cbn [fst snd]. unfold leaves. cbn [blocks fst].
  assert (Out : ~ In (length h') (blocks ps)) by (intros I; apply B in I; [apply alive_len in I; lia|lia]).
  split; [intros k Hk; rewrite nth_error_app1 by lia; apply A; exact Hk|]. split; [|split; [|split]].
  - intros k Hk. unfold alive. destruct (Nat.lt_trichotomy k (length h')) as [Lt|[->|Gt]].
    + rewrite nth_error_app1 by lia. fold (alive h' k). rewrite (B k Hk). cbn [In]. intuition lia.
    + rewrite nth_error_app2, Nat.sub_diag by lia. cbn. split; [auto|eauto].
    + rewrite (proj2 (nth_error_None _ _)) by (rewrite app_length; cbn; lia). split; [intros (x & Q); discriminate|]. intros [Q|I]; [lia|]. apply B in I; [|lia]. apply alive_len in I. lia.
  - intros k [<-|I]; [lia|apply C, I].
  - constructor; assumption.
  - intros p [Q|I]; [injection Q as <-; reflexivity|exact (E p I)].
Qed.
Lemma leaves_free h h' ps p : leaves h h' (Some p :: ps) -> exists h'', h_free h' p = OK h'' /\ leaves h h'' ps.
Proof.
  intros L. pose proof (leaves_len _ _ _ L) as Ln. destruct L as (A & B & C & D & E). cbn [blocks] in *. assert (Hp : length h <= fst p) by (apply C; left; reflexivity).
  destruct (proj2 (B _ Hp) (or_introl eq_refl)) as (c & Hc). pose proof (E p (or_introl eq_refl)) as Z0. apply NoDup_cons_iff in D as [D1 D2].
  assert (Lp : fst p < length h') by (apply nth_error_Some; congruence).
  destruct (aset_at h' (fst p) None Lp) as (h'' & Q & _ & N). exists h''.
  split; [unfold h_free; rewrite (proj2 (aget_OK h' (fst p) _) Hc); cbn [bind]; rewrite Z0; cbn; exact Q|].
  split; [intros k Hk; rewrite N; replace (k =? fst p) with false by (symmetry; apply Nat.eqb_neq; lia); apply A, Hk|]. split; [|split; [|split; [exact D2|intros q I; apply E; right; exact I]]].
  - intros k Hk. unfold alive. rewrite N. destruct (Nat.eqb_spec k (fst p)) as [->|Nk]; [split; [intros (x & Qx); discriminate|intros I; contradiction]|]. fold (alive h' k). rewrite (B k Hk). cbn [In]. intuition congruence.
  - intros k I. apply C. right. exact I.
Qed.
Lemma leaves_trans h h1 h2 ps qs : leaves h h1 ps -> leaves h1 h2 qs -> leaves h h2 (qs ++ ps).
Proof.
  intros L1 L2. pose proof (leaves_len _ _ _ L1) as N1. destruct L1 as (A1 & B1 & C1 & D1 & E1). destruct L2 as (A2 & B2 & C2 & D2 & E2).
  assert (Lt : forall k, In k (blocks ps) -> k < length h1) by (intros k I; apply alive_len; apply B1; [apply C1, I|exact I]).
  split; [intros k Hk; rewrite A2 by lia; apply A1, Hk|]. split; [|split; [|split]].
  - intros k Hk. rewrite blocks_app, in_app_iff. destruct (Nat.lt_ge_cases k (length h1)) as [Q|Q].
    + unfold alive. rewrite A2 by exact Q. fold (alive h1 k). rewrite (B1 k Hk). split; [auto|]. intros [I|I]; [apply C2 in I; lia|exact I].
    + rewrite (B2 k Q). split; [auto|]. intros [I|I]; [exact I|apply Lt in I; lia].
  - intros k. rewrite blocks_app, in_app_iff. intros [I|I]; [apply C2 in I; lia|apply C1, I].
  - rewrite blocks_app. assert (X : forall x, In x (blocks qs) -> In x (blocks ps) -> False) by (intros x I J; apply C2 in I; apply Lt in J; lia).
    clear - D1 D2 X. induction (blocks qs) as [|x l IH]; [exact D1|]. apply NoDup_cons_iff in D2 as [N D2]. cbn [app]. constructor; [|apply IH; [exact D2|intros y I; apply X; right; exact I]].
    rewrite in_app_iff. intros [I|I]; [exact (N I)|exact (X x (or_introl eq_refl) I)].
  - intros p. rewrite in_app_iff. intros [I|I]; [exact (E2 p I)|exact (E1 p I)].
Qed.
Lemma leaves_free_opt h h' ps p : leaves h h' (p :: ps) -> exists h'', h_free_opt h' p = OK h'' /\ leaves h h'' ps.
Proof. destruct p as [p|]; intros L; [exact (leaves_free _ _ _ _ L)|]. exists h'. split; [reflexivity|]. apply leaves_none in L. exact L. Qed.
Lemma leaves_free_all ps : forall h h' qs, leaves h h' (ps ++ qs) -> exists h'', h_free_all h' ps = OK h'' /\ leaves h h'' qs.
Proof.
  induction ps as [|p ps IH]; intros h h' qs L; [exists h'; auto|]. destruct (leaves_free_opt _ _ _ _ L) as (h1 & E & L1). destruct (IH _ _ _ L1) as (h2 & E2 & L2).
  exists h2. split; [|exact L2]. cbn [h_free_all]. rewrite E. exact E2.
Qed.
Lemma leaves_realloc h h' ps p n : leaves h h' (p :: ps) -> exists h'' q, h_realloc h' p n = OK (h'', q) /\ leaves h h'' (Some q :: ps).
Proof.
  intros L. pose proof (leaves_malloc h h' (p :: ps) (block_of n) L) as M. unfold h_realloc. destruct (h_malloc h' (block_of n)) as [h1 q] eqn:E. cbn [fst snd] in M.
  destruct (leaves_free_opt h h1 (Some q :: ps) p) as (h2 & E2 & L2); [eapply leaves_perm; [|exact M]; apply perm_swap|]. exists h2, q. rewrite E2. cbn [bind]. auto.
Qed.
Ltac mal L := match goal with |- context [h_malloc ?h ?c] => let M := fresh "M" in pose proof (leaves_malloc _ h _ c L) as M; let h1 := fresh "h" in let q := fresh "q" in destruct (h_malloc h c) as [h1 q]; cbn [fst snd] in M end.

Lemma read_into_ok {A} h ws num wn (read : res (plot * option A)) : alike read (read_into h ws num wn read) (gives_block h).
Proof.
  unfold read_into. pose proof (leaves_refl h) as L0. mal L0. destruct (ws =? 4)%Z.
  - mal M. destruct read as [[pl [l|]]| |]; cbn [bind alike gives_block]; auto.
    + destruct (leaves_free _ _ _ _ M0) as (h2 & E & L). rewrite E. cbn. auto.
    + destruct (leaves_free _ _ _ _ M0) as (h2 & E & L). rewrite E. cbn [bind]. destruct (leaves_free _ _ _ _ L) as (h3 & E3 & L3). rewrite E3. cbn. auto.
  - destruct read as [[pl [l|]]| |]; cbn [bind alike gives_block]; auto. destruct (leaves_free _ _ _ _ M) as (h2 & E & L). rewrite E. cbn. auto.
Qed.
Lemma words_len n : forall ws d, length (words n ws d) = n.
Proof. induction n as [|n IH]; intros; cbn [words length]; auto. Qed.
Lemma read_ids_mem_ok h pl k num : (0 <= num)%Z -> alike (read_ids pl k num) (read_ids_mem h pl k num) (gives_array h).
Proof.
  intros Nn. unfold read_ids, read_ids_mem. destruct (num =? 0)%Z eqn:E0; [cbn; split; [reflexivity|]; split; [reflexivity|]; split; [tauto|]; apply -> leaves_none; apply leaves_refl|].
  pose proof (read_into_ok h (d_ws (pl_buf (clear pl))) num num (read_at (clear pl) num (pl_ptr (clear pl) k))) as R.
  destruct (read_at (clear pl) num (pl_ptr (clear pl) k)) as [[pl1 [l|]]| |] eqn:Er; destruct (read_into _ _ _ _ _) as [[[h1 pl2] [[l2 p]|]]| |]; cbn in R |- *; try contradiction; auto.
  - destruct R as (-> & -> & L). split; [reflexivity|]. split; [reflexivity|]. split; [|exact L]. split; [discriminate|]. intros ->. exfalso. unfold read_at in Er. destruct (read_bytes_at _ _ _) as [[pl3 [d|]]| |]; try discriminate. cbn [bind] in Er. injection Er as _ Er.
    apply (f_equal (@length Z)) in Er. rewrite words_len in Er. cbn in Er. lia.
  - destruct R as (-> & L). split; [reflexivity|]. split; [reflexivity|]. split; [tauto|]. apply -> leaves_none. exact L.
Qed.
Lemma build_len {A} (f : nat -> res A) n : forall i l, build f n i = OK l -> length l = n.
Proof.
  induction n as [|n IH]; intros i l E; cbn [build] in E; [injection E as <-; reflexivity|].
  destruct (f i) as [x| |]; try discriminate. cbn [bind] in E. destruct (build f n (S i)) as [r| |] eqn:Eb; try discriminate. injection E as <-. cbn. f_equal. eapply IH, Eb.
Qed.
Lemma read_con_mem_ok {A} h pl num w k (f : Z -> list Z -> nat -> res A) : alike (read_con pl num w k f) (read_con_mem h pl num w k f) (gives_array h).
Proof.
  unfold read_con, read_con_mem. destruct (num <=? 0)%Z eqn:E0; [cbn; split; [reflexivity|]; split; [reflexivity|]; split; [tauto|]; apply -> leaves_none; apply leaves_refl|].
  set (rd := bind (read_at (clear pl) (u64 (w * num)) (pl_ptr (clear pl) k)) _).
  set (rd2 := bind (read_at (clear pl) (u64 (w * num)) (pl_ptr (clear pl) k)) _).
  assert (Q : rd = do ' (pl, d) <- rd2; OK (pl, or_null d)). { unfold rd, rd2. destruct (read_at _ _ _) as [[pl1 [d|]]| |]; try reflexivity. cbn [bind]. destruct (build _ _ _); reflexivity. }
  assert (Ne : forall pl1 l, rd2 = OK (pl1, Some l) -> l <> []). { intros pl1 l E ->. unfold rd2 in E. destruct (read_at _ _ _) as [[pl3 [d|]]| |]; try discriminate. cbn [bind] in E. destruct (build _ _ _) eqn:Eb; try discriminate. injection E as _ ->. apply build_len in Eb. cbn in Eb. lia. }
  rewrite Q. clearbody rd2. clear Q rd. pose proof (read_into_ok h (d_ws (pl_buf (clear pl))) num (w * num) rd2) as R.
  destruct rd2 as [[pl1 [l|]]| |] eqn:Er; destruct (read_into _ _ _ _ _) as [[[h1 pl2] [[l2 p]|]]| |]; cbn in R |- *; try contradiction; auto.
  - destruct R as (-> & -> & L). split; [reflexivity|]. split; [reflexivity|]. split; [|exact L]. split; [discriminate|]. intros ->. exfalso. eapply Ne; eauto.
  - destruct R as (-> & L). split; [reflexivity|]. split; [reflexivity|]. split; [tauto|]. apply -> leaves_none. exact L.
Qed.
Lemma read_part_ids_mem_ok h pl : (0 <= pl_cd pl NMMAT)%Z -> alike (read_part_ids pl) (read_part_ids_mem h pl) (gives_array h).
Proof.
  intros Nn. unfold read_part_ids_mem. change (pl_ptr (clear pl) K_PART_IDS) with (pl_ptr pl K_PART_IDS). change (pl_ptr (clear pl) K_PART_TITLES) with (pl_ptr pl K_PART_TITLES).
  destruct (pl_ptr pl K_PART_IDS =? 0)%Z eqn:E1; [destruct (pl_ptr pl K_PART_TITLES =? 0)%Z eqn:E2|].
  - unfold read_part_ids. change (pl_ptr (clear pl) K_PART_IDS) with (pl_ptr pl K_PART_IDS). change (pl_ptr (clear pl) K_PART_TITLES) with (pl_ptr pl K_PART_TITLES). rewrite E1, E2.
    cbn. split; [reflexivity|]. split; [reflexivity|]. split; [tauto|]. apply -> leaves_none. apply leaves_refl.
  - pose proof (leaves_refl h) as L0. mal L0. change (read_part_ids (clear pl)) with (read_part_ids pl).
    assert (Ne : forall x, read_part_ids pl = OK x -> snd x <> []).
    { intros x E Q. unfold read_part_ids in E. change (pl_ptr (clear pl) K_PART_IDS) with (pl_ptr pl K_PART_IDS) in E. change (pl_ptr (clear pl) K_PART_TITLES) with (pl_ptr pl K_PART_TITLES) in E. rewrite E1, E2 in E.
      destruct (Z.to_nat _); [discriminate|]. destruct (read_words_at _ _ _) as [[[b p] d]| |]; try discriminate. cbn [bind] in E. destruct (skipb (b, p) 72) as [c| |]; try discriminate. cbn [bind] in E.
      destruct (title_ids n c) as [[c' l]| |]; try discriminate. cbn [bind] in E. destruct (pointer_close _ _); try discriminate. cbn [bind] in E. injection E as <-. discriminate. }
    destruct (read_part_ids pl) as [[pl1 l]| |]; cbn; auto. split; [reflexivity|]. split; [reflexivity|]. split; [|exact M]. split; [discriminate|]. intros ->. exfalso. exact (Ne _ eq_refl eq_refl).
  - assert (Q : read_part_ids pl = read_ids (clear pl) K_PART_IDS (pl_cd (clear pl) NMMAT)).
    { unfold read_part_ids. change (pl_ptr (clear pl) K_PART_IDS) with (pl_ptr pl K_PART_IDS). rewrite E1. reflexivity. }
    rewrite Q. apply read_ids_mem_ok. exact Nn.
Qed.
Lemma read_title_mem_ok h pl : alike (read_title pl) (read_title_mem h pl) (gives_or_null h).
Proof.
  unfold read_title, read_title_mem. pose proof (leaves_refl h) as L0. mal L0. change (pl_ptr (clear pl) K_TITLE) with (pl_ptr pl K_TITLE). destruct (read_bytes_at _ _ _) as [[pl1 [t|]]| |]; cbn; auto.
  destruct (leaves_free _ _ _ _ M) as (h2 & E & L). rewrite E. cbn. auto.
Qed.
Lemma read_all_time_mem_ok h pl : alike (read_all_time pl) (read_all_time_mem h pl) (gives_or_null h).
Proof.
  unfold read_all_time, read_all_time_mem. pose proof (leaves_refl h) as L0. mal L0. destruct (all_times _ _) as [[pl1 [t|]]| |]; cbn; auto.
  destruct (leaves_free _ _ _ _ M) as (h2 & E & L). rewrite E. cbn. auto.
Qed.
Lemma node_words_mem_ok h pl state k : alike (node_words pl state k) (node_words_mem h pl state k) (gives_block h).
Proof.
  unfold node_words, node_words_mem. destruct (pl_ptr (clear pl) k =? 0)%Z; [cbn; split; [reflexivity|apply leaves_refl]|]. destruct (state_at (clear pl) state) as [s|]; [|cbn; split; [reflexivity|apply leaves_refl]].
  pose proof (leaves_refl h) as L0. mal L0. destruct (read_at _ _ _) as [[pl1 [t|]]| |]; cbn; auto. destruct (leaves_free _ _ _ _ M) as (h2 & E & L). rewrite E. cbn. auto.
Qed.
Lemma node_data_mem_ok h pl state k : alike (node_data pl state k) (node_data_mem h pl state k) (gives_block h).
Proof.
  unfold node_data, node_data_mem. pose proof (node_words_mem_ok h pl state k) as R. destruct (node_words pl state k) as [[pl1 [l|]]| |], (node_words_mem h pl state k) as [[[h1 pl2] [[l2 p]|]]| |]; cbn [bind alike gives_block] in R |- *; try contradiction; auto.
  destruct R as (-> & -> & L). destruct (d_ws (pl_buf pl1) =? 4)%Z; [|cbn; auto]. mal L. destruct (leaves_free h h0 [Some q] p) as (h2 & E & L2); [eapply leaves_perm; [|exact M]; apply perm_swap|]. rewrite E. cbn. auto.
Qed.
Lemma read_all_node_data_mem_ok h pl k : alike (read_all_node_data pl k) (read_all_node_data_mem h pl k) (gives_block h).
Proof.
  unfold read_all_node_data, read_all_node_data_mem. pose proof (leaves_refl h) as L0. mal L0. destruct (all_node_words _ _ _) as [[pl1 [t|]]| |]; cbn [bind alike]; auto.
  - destruct (d_ws (pl_buf pl1) =? 4)%Z; [|cbn; auto]. mal M. destruct (leaves_free h h1 [Some q0] q) as (h2 & E & L2); [eapply leaves_perm; [|exact M0]; apply perm_swap|]. rewrite E. cbn. auto.
  - destruct (leaves_free _ _ _ _ M) as (h2 & E & L). rewrite E. cbn. auto.
Qed.
Lemma more_titles_mem_ok n : forall h0 h qs c, leaves h0 h qs ->
  alike (more_titles n c) (more_titles_mem h n c) (fun a b => let '(c1, l) := a in let '(h', c2, ps, l2) := b in c2 = c1 /\ l2 = l /\ leaves h0 h' (ps ++ qs) /\ ~ In None ps /\ (forall l', l = Some l' -> length ps = length l')).
Proof.
  induction n as [|n IH]; intros h0 h qs c L.
  - cbn. split; [reflexivity|]. split; [reflexivity|]. split; [exact L|]. split; [intros []|]. intros l' E. injection E as <-. reflexivity.
  - cbn [more_titles more_titles_mem]. mal L. destruct (skip c 1) as [c1| |]; cbn [bind alike]; auto. destruct (read_words _ _ _) as [[[b p] d]| |]; cbn [bind alike]; auto.
    destruct (d_err b).
    + cbn. split; [reflexivity|]. split; [reflexivity|]. split; [exact M|]. split; [intros [Q|[]]; discriminate|]. intros l' Q. discriminate.
    + specialize (IH h0 h1 (Some q :: qs) (b, p) M). destruct (more_titles n (b, p)) as [[c2 l]| |], (more_titles_mem h1 n (b, p)) as [[[[h2 c3] ps] l2]| |]; cbn in IH |- *; try contradiction; auto.
      destruct IH as (-> & -> & L2 & Np & Ln). split; [reflexivity|]. split; [reflexivity|]. split; [eapply leaves_perm; [|exact L2]; apply Permutation_sym, Permutation_middle|]. split; [intros [Q|I]; [discriminate|exact (Np I)]|].
      intros l' Q. destruct l; [|discriminate]. injection Q as <-. cbn. f_equal. apply Ln. reflexivity.
Qed.
Lemma read_part_titles_mem_ok h pl : alike (read_part_titles pl) (read_part_titles_mem h pl) (gives_strings h).
Proof.
  unfold read_part_titles, read_part_titles_mem. pose proof (leaves_refl h) as L0. mal L0. destruct (Z.to_nat (pl_cd (clear pl) NMMAT)) as [|n]; [exact I|].
  mal M. destruct (read_words_at _ _ _) as [[[b p] d]| |]; cbn [bind alike]; auto.
  set (v := match d_err b with Some _ => _ | None => _ end). set (m := match d_err b with Some _ => OK (h1, _, _, _) | None => _ end).
  assert (R : alike v m (fun a b => let '(c1, l) := a in let '(h', c2, ps, l2) := b in c2 = c1 /\ l2 = l /\ leaves h h' (ps ++ [Some q]) /\ ~ In None ps /\ (forall l', l = Some l' -> length ps = length l'))).
  { unfold v, m. destruct (d_err b).
    - cbn. split; [reflexivity|]. split; [reflexivity|]. split; [exact M0|]. split; [intros [Q|[]]; discriminate|]. intros l' Q. discriminate.
    - pose proof (more_titles_mem_ok n h h1 _ (b, p) M0) as R. destruct (more_titles n (b, p)) as [[c2 l]| |], (more_titles_mem h1 n (b, p)) as [[[[h2 c3] ps] l2]| |]; cbn in R |- *; try contradiction; auto.
      destruct R as (-> & -> & L2 & Np & Ln). split; [reflexivity|]. split; [reflexivity|]. split; [eapply leaves_perm; [|exact L2]; apply Permutation_sym, Permutation_middle|]. split; [intros [Q|I]; [discriminate|exact (Np I)]|].
      intros l' Q. destruct l; [|discriminate]. injection Q as <-. cbn. f_equal. apply Ln. reflexivity. }
  clearbody v m. destruct v as [[c1 l]| |], m as [[[[h2 c2] ps] l2]| |]; cbn in R |- *; try contradiction; auto. destruct R as (-> & -> & L & Np & Ln).
  destruct (pointer_close _ _) as [[]| |]; cbn; auto. destruct l as [l|].
  - cbn. split; [reflexivity|]. split; [reflexivity|]. split; [apply Ln; reflexivity|]. split; [exact Np|]. eapply leaves_perm; [|exact L]. apply Permutation_sym, Permutation_cons_append.
  - destruct (leaves_free_all ps h h2 [Some q] L) as (h3 & E & L3). rewrite E. cbn [bind]. destruct (leaves_free _ _ _ _ L3) as (h4 & E4 & L4). rewrite E4. cbn. auto.
Qed.

(** A reader keeps the counts; after an error it returns nothing. *)
Definition keeps {A} (pl : plot) (r : res (plot * list A)) : Prop := forall pl1 l, r = OK (pl1, l) -> pl_cd pl1 = pl_cd pl /\ (pl_err pl1 <> None -> l = []).
Lemma read_at_keeps pl n pos pl1 d : pl_err pl = None -> read_at pl n pos = OK (pl1, d) -> pl_cd pl1 = pl_cd pl /\ (pl_err pl1 <> None -> d = None).
Proof.
  intros E0 E. unfold read_at in E. destruct (read_bytes_at pl n pos) as [[pl2 d2]| |] eqn:Eb; try discriminate. cbn [bind] in E. injection E as <- <-.
  unfold read_bytes_at in Eb. destruct (read_words_at _ _ _) as [[[b p] w]| |]; try discriminate. cbn [bind] in Eb. destruct (pointer_close b p); try discriminate. cbn [bind] in Eb.
  destruct (d_err b); injection Eb as <- <-; (split; [reflexivity|]); [reflexivity|]. cbn. congruence.
Qed.
Lemma read_ids_keeps pl k num : keeps pl (read_ids pl k num).
Proof.
  intros pl1 l E. unfold read_ids in E. destruct (num =? 0)%Z; [injection E as <- <-; split; [reflexivity|cbn; congruence]|].
  destruct (read_at (clear pl) num (pl_ptr (clear pl) k)) as [[pl2 d]| |] eqn:Er; try discriminate. cbn [bind] in E. injection E as <- <-. destruct (read_at_keeps (clear pl) _ _ _ _ eq_refl Er) as (A & B). split; [exact A|]. intros N. rewrite (B N). reflexivity.
Qed.
Lemma read_con_keeps {A} pl num w k (f : Z -> list Z -> nat -> res A) : keeps pl (read_con pl num w k f).
Proof.
  intros pl1 l E. unfold read_con in E. destruct (num <=? 0)%Z; [injection E as <- <-; split; [reflexivity|cbn; congruence]|].
  destruct (read_at (clear pl) (u64 (w * num)) (pl_ptr (clear pl) k)) as [[pl2 d]| |] eqn:Er; try discriminate. cbn [bind] in E. destruct (read_at_keeps (clear pl) _ _ _ _ eq_refl Er) as (B & C).
  destruct d as [d|]; [|injection E as <- <-; auto]. destruct (build _ _ _); try discriminate. injection E as <- <-. split; [exact B|]. intros N. specialize (C N). discriminate.
Qed.
Lemma counts_keep (pl pl1 : plot) : pl_cd pl1 = pl_cd pl -> counts_ok pl -> counts_ok pl1.
Proof. intros E C f I. rewrite E. apply C, I. Qed.
(** A reader: with its memory like without, it keeps the counts. *)
Definition reader_ok {A} (v : plot -> res (plot * list A)) (m : heap -> plot -> res (heap * plot * held A)) : Prop :=
  forall pl, counts_ok pl -> keeps pl (v pl) /\ forall h, alike (v pl) (m h pl) (gives_array h).
Lemma u64_nonneg n : (0 <= u64 n)%Z.
Proof. unfold u64. apply Z.mod_pos_bound. reflexivity. Qed.
Ltac count_in := match goal with C : counts_ok ?pl |- (0 <= pl_cd ?pl _)%Z => apply C; cbn [In]; tauto end.
Lemma node_ids_reader : reader_ok read_node_ids read_node_ids_mem.
Proof. intros pl C. split; [apply read_ids_keeps|]. intros h. apply read_ids_mem_ok. count_in. Qed.
Lemma solid_ids_reader : reader_ok read_solid_element_ids read_solid_element_ids_mem.
Proof. intros pl C. split; [apply read_ids_keeps|]. intros h. apply read_ids_mem_ok. apply u64_nonneg. Qed.
Lemma beam_ids_reader : reader_ok read_beam_element_ids read_beam_element_ids_mem.
Proof. intros pl C. split; [apply read_ids_keeps|]. intros h. apply read_ids_mem_ok. count_in. Qed.
Lemma shell_ids_reader : reader_ok read_shell_element_ids read_shell_element_ids_mem.
Proof. intros pl C. split; [apply read_ids_keeps|]. intros h. apply read_ids_mem_ok. count_in. Qed.
Lemma thick_shell_ids_reader : reader_ok read_thick_shell_element_ids read_thick_shell_element_ids_mem.
Proof. intros pl C. split; [apply read_ids_keeps|]. intros h. apply read_ids_mem_ok. count_in. Qed.
Lemma solids_reader : reader_ok read_solid_elements read_solid_elements_mem.
Proof. intros pl C. split; [apply read_con_keeps|]. intros h. apply read_con_mem_ok. Qed.
Lemma beams_reader : reader_ok read_beam_elements read_beam_elements_mem.
Proof. intros pl C. split; [apply read_con_keeps|]. intros h. apply read_con_mem_ok. Qed.
Lemma shells_reader : reader_ok read_shell_elements read_shell_elements_mem.
Proof. intros pl C. split; [apply read_con_keeps|]. intros h. apply read_con_mem_ok. Qed.
Lemma thick_shells_reader : reader_ok read_thick_shell_elements read_thick_shell_elements_mem.
Proof. intros pl C. split; [apply read_con_keeps|]. intros h. apply read_con_mem_ok. Qed.

Lemma pick_mem_ok part_index ids mats : forall i num h0 h qs pids pinds, leaves h0 h (pids :: pinds :: qs) ->
  alike (pick part_index ids mats i) (pick_mem h part_index ids mats i num pids pinds) (fun a b => let '(l, c) := a in let '(h', (l', p), (c', q)) := b in
    l' = l /\ c' = c /\ leaves h0 h' (p :: q :: qs) /\ (l = [] -> c = [] /\ p = pids /\ q = pinds) /\ (l <> [] -> c <> [] /\ p <> None /\ q <> None)).
Proof.
  induction mats as [|m mats IH]; intros i num h0 h qs pids pinds L.
  - cbn. repeat (split; [reflexivity|]). split; [exact L|]. split; [auto|]. congruence.
  - cbn [pick pick_mem]. destruct (m =? part_index)%Z; [|apply IH; exact L].
    destruct (leaves_realloc _ _ _ _ (num + 1)%Z L) as (h1 & p & E1 & L1). rewrite E1. cbn [bind].
    assert (L1' : leaves h0 h1 (pinds :: Some p :: qs)) by (eapply leaves_perm; [|exact L1]; apply perm_swap).
    destruct (leaves_realloc _ _ _ _ (num + 1)%Z L1') as (h2 & q & E2 & L2). rewrite E2. cbn [bind].
    destruct (aget ids i) as [id| |]; cbn [bind alike]; auto.
    assert (L2' : leaves h0 h2 (Some p :: Some q :: qs)) by (eapply leaves_perm; [|exact L2]; apply perm_swap).
    specialize (IH (S i) (num + 1)%Z h0 h2 qs (Some p) (Some q) L2').
    destruct (pick part_index ids mats (S i)) as [[a c]| |], (pick_mem h2 part_index ids mats (S i) (num + 1)%Z (Some p) (Some q)) as [[[h3 [a' p']] [c' q']]| |]; cbn in IH |- *; try contradiction; auto.
    destruct IH as (-> & -> & L3 & N1 & N2). repeat (split; [reflexivity|]). split; [exact L3|]. split; [discriminate|]. intros _. split; [discriminate|].
    destruct a as [|x a]; [destruct (N1 eq_refl) as (_ & -> & ->); split; discriminate|]. apply N2. discriminate.
Qed.
Definition gives_two {P A B} (h : heap) (a : P * (list A * list B)) (b : heap * P * (list A * option ptr) * (list B * option ptr)) : Prop :=
  let '(pl, (l, c)) := a in let '(h', pl', (l', p), (c', q)) := b in
  pl' = pl /\ l' = l /\ c' = c /\ leaves h h' [p; q] /\ (p = None <-> l = []) /\ (q = None <-> l = []) /\ (l = [] <-> c = []).
Lemma leaves_two h h' : leaves h h' [] -> leaves h h' [None; None].
Proof. intros L. apply -> leaves_none. apply -> leaves_none. exact L. Qed.
Lemma add_elements_mem_ok {A} h pl id_func id_mem el_func el_mem (mat : A -> Z) part_index :
  counts_ok pl -> reader_ok id_func id_mem -> reader_ok el_func el_mem ->
  (forall pl1 r, add_elements_to_part pl id_func el_func mat part_index = OK (pl1, r) -> pl_cd pl1 = pl_cd pl) /\
  alike (add_elements_to_part pl id_func el_func mat part_index) (add_elements_mem h pl id_mem el_mem mat part_index) (gives_two h).
Proof.
  intros C Hi He. unfold add_elements_to_part, add_elements_mem. destruct (Hi pl C) as (Ki & Hi'). clear Hi. rename Hi' into Hi. split.
  { intros pl1 r E. destruct (id_func pl) as [[pl2 ids]| |]; try discriminate. cbn [bind] in E. destruct (Ki _ _ eq_refl) as (K1 & _). destruct (pl_err pl2); [injection E as <- <-; exact K1|].
    destruct ids; [injection E as <- <-; exact K1|]. destruct (He pl2 (counts_keep _ _ K1 C)) as (Ke & _). destruct (el_func pl2) as [[pl3 els]| |]; try discriminate. cbn [bind] in E. destruct (Ke _ _ eq_refl) as (K2 & _).
    destruct (pl_err pl3); [injection E as <- <-; change (pl_cd pl3 = pl_cd pl); congruence|]. destruct (pick _ _ _ _); try discriminate. injection E as <- <-. congruence. }
  specialize (Hi h).
  destruct (id_func pl) as [[pl1 ids]| |], (id_mem h pl) as [[[h1 pl1'] [ids' pids]]| |]; cbn [bind alike gives_array] in Hi |- *; try contradiction; auto.
  destruct Hi as (-> & -> & Np & L1).
  assert (Lx : forall h', leaves h h' [] -> gives_two (B := nat) (A := Z) h (clear pl1, ([], [])) (h', clear pl1, nothing, nothing)).
  { intros h' L. cbn. repeat (split; [reflexivity|]). split; [apply leaves_two; exact L|]. repeat split; auto. }
  destruct (pl_err pl1) eqn:Er.
  - destruct (Ki _ _ eq_refl) as (_ & K). rewrite Er in K. rewrite (proj2 Np (K ltac:(discriminate))) in L1. apply Lx. apply leaves_none. exact L1.
  - destruct ids as [|i0 ids]; [cbn; assert (pids = None) as -> by (apply Np; reflexivity); repeat (split; [reflexivity|]); split; [apply -> leaves_none; exact L1|]; repeat split; auto|].
    destruct (Ki _ _ eq_refl) as (K1 & _). specialize (proj2 (He pl1 (counts_keep _ _ K1 C)) h1) as He'. clear He. rename He' into He. destruct (el_func pl1) as [[pl2 els]| |], (el_mem h1 pl1) as [[[h2 pl2'] [els' pels]]| |]; cbn [bind alike gives_array] in He |- *; try contradiction; auto.
    destruct He as (-> & -> & Nq & L2). pose proof (leaves_trans _ _ _ _ _ L1 L2) as L12. cbn [app] in L12.
    destruct (pl_err pl2) eqn:Er2.
    + cbn [bind]. destruct (leaves_free_opt h h2 [pels] pids) as (h3 & E3 & L3); [eapply leaves_perm; [|exact L12]; apply perm_swap|]. rewrite E3. cbn [bind].
      destruct (leaves_free_opt h h3 [] pels L3) as (h4 & E4 & L4). rewrite E4. cbn [bind alike]. cbn. repeat (split; [reflexivity|]). split; [apply leaves_two; exact L4|]. repeat split; auto.
    + assert (L12' : leaves h h2 [None; None; pels; pids]) by (apply -> leaves_none; apply -> leaves_none; exact L12).
      pose proof (pick_mem_ok part_index (i0 :: ids) (map mat els) 0 0 h h2 [pels; pids] None None L12') as R.
      destruct (pick part_index (i0 :: ids) (map mat els) 0) as [[a c]| |], (pick_mem h2 part_index (i0 :: ids) (map mat els) 0 0 None None) as [[[h3 [a' p]] [c' q]]| |]; cbn [bind alike] in R |- *; try contradiction; auto.
      destruct R as (-> & -> & L3 & N1 & N2).
      destruct (leaves_free_opt h h3 [p; q; pels] pids) as (h4 & E4 & L4); [eapply leaves_perm; [|exact L3]; exact (Permutation_sym (Permutation_middle [p; q; pels] [] pids))|]. rewrite E4. cbn [bind].
      destruct (leaves_free_opt h h4 [p; q] pels) as (h5 & E5 & L5); [eapply leaves_perm; [|exact L4]; exact (Permutation_sym (Permutation_middle [p; q] [] pels))|]. rewrite E5. cbn [bind alike].
      cbn. repeat (split; [reflexivity|]). split; [exact L5|].
      destruct a as [|x a]; [destruct (N1 eq_refl) as (-> & -> & ->); repeat split; auto|]. destruct (N2 ltac:(discriminate)) as (Nc & Nn & Nm).
      repeat split; intros X; try discriminate; try contradiction; congruence.
Qed.
Lemma two_sizes {A B} (p q : option ptr) (l : list A) (c : list B) : (p = None <-> l = []) -> (q = None <-> l = []) -> (l = [] <-> c = []) -> (p = None <-> length l = 0) /\ (q = None <-> length c = 0).
Proof. intros X Y W. destruct l, c; cbn; intuition (congruence || discriminate). Qed.
Ltac add_el R L K :=
  let Ka := fresh "Ka" in let Ra := fresh "Ra" in
  destruct R as [Ka Ra];
  match type of Ra with alike ?v ?m _ => destruct v as [[? [? ?]]| |], m as [[[[? ?] [? ?]] [? ?]]| |]; cbn [bind alike gives_two] in Ra |- *; try contradiction; try exact I end;
  pose proof (Ka _ _ eq_refl) as K; clear Ka; let X := fresh in let Y := fresh in let W := fresh in destruct Ra as (-> & -> & -> & L & X & Y & W); pose proof (two_sizes _ _ _ _ X Y W) as []; clear X Y W.
Lemma perm_eight (a b c d e f g i : option ptr) : Permutation [a; b; c; d; e; f; g; i] [g; e; c; a; i; f; d; b].
Proof.
  apply (perm_trans (l' := g :: [a; b; c; d; e; f; i])); [exact (Permutation_sym (Permutation_middle [a; b; c; d; e; f] [i] g))|]. apply perm_skip.
  apply (perm_trans (l' := e :: [a; b; c; d; f; i])); [exact (Permutation_sym (Permutation_middle [a; b; c; d] [f; i] e))|]. apply perm_skip.
  apply (perm_trans (l' := c :: [a; b; d; f; i])); [exact (Permutation_sym (Permutation_middle [a; b] [d; f; i] c))|]. apply perm_skip. apply perm_skip.
  apply (perm_trans (l' := i :: [b; d; f])); [exact (Permutation_sym (Permutation_middle [b; d; f] [] i))|]. apply perm_skip.
  apply (perm_trans (l' := f :: [b; d])); [exact (Permutation_sym (Permutation_middle [b; d] [] f))|]. apply perm_skip. apply perm_swap.
Qed.
Lemma read_part_mem_ok h pl part_index : counts_ok pl -> alike (read_part pl part_index) (read_part_mem h pl part_index) (gives_part h).
Proof.
  intros C. assert (C0 : counts_ok (clear pl)) by exact C. unfold read_part, read_part_mem. cbn zeta.
  pose proof (add_elements_mem_ok h (clear pl) _ _ _ _ c_mat part_index C0 solid_ids_reader solids_reader) as R1. add_el R1 L1 K1.
  pose proof (counts_keep _ _ K1 C0) as C1. match goal with |- context [add_elements_mem ?h0 ?p0 _ _ _ _] => pose proof (add_elements_mem_ok h0 p0 _ _ _ _ c_mat part_index C1 thick_shell_ids_reader thick_shells_reader) as R2 end. add_el R2 L2 K2.
  pose proof (counts_keep _ _ K2 C1) as C2. match goal with |- context [add_elements_mem ?h0 ?p0 _ _ _ _] => pose proof (add_elements_mem_ok h0 p0 _ _ _ _ bc_mat part_index C2 beam_ids_reader beams_reader) as R3 end. add_el R3 L3 K3.
  pose proof (counts_keep _ _ K3 C2) as C3. match goal with |- context [add_elements_mem ?h0 ?p0 _ _ _ _] => pose proof (add_elements_mem_ok h0 p0 _ _ _ _ c_mat part_index C3 shell_ids_reader shells_reader) as R4 end. add_el R4 L4 K4.
  pose proof (leaves_trans _ _ _ _ _ (leaves_trans _ _ _ _ _ (leaves_trans _ _ _ _ _ L1 L2) L3) L4) as L. cbn [app] in L.
  match type of L with leaves _ _ [?a; ?b; ?c; ?d; ?e; ?f; ?g; ?i] => pose proof (leaves_perm _ _ _ _ (perm_eight a b c d e f g i) L) as L' end.
  match goal with |- alike _ (match _ with [] => match _ with [] => match _ with [] => match _ with [] => OK (?h1, _, ?p, ?ps) | _ => _ end | _ => _ end | _ => _ end | _ => _ end) _ =>
    assert (G : forall e, gives_part h (e, p) (h1, e, p, ps)) end.
  { intros e. cbn [gives_part fst snd]. split; [reflexivity|]. split; [reflexivity|]. split; [exact L'|]. right. unfold sizes. cbn [p_solid_ids p_thick_shell_ids p_beam_ids p_shell_ids p_solid_indices p_thick_shell_indices p_beam_indices p_shell_indices].
    repeat (constructor; [assumption|]). constructor. }
  repeat match goal with |- alike (match ?a with _ => _ end) _ _ => destruct a; try exact (G _) end.
Qed.
Lemma read_part_ids_reader : reader_ok read_part_ids read_part_ids_mem.
Proof.
  intros pl C. split; [|intros h; apply read_part_ids_mem_ok; count_in].
  intros pl1 l E. unfold read_part_ids in E. destruct (pl_ptr (clear pl) K_PART_IDS =? 0)%Z; [|destruct (read_ids_keeps (clear pl) _ _ _ _ E) as (A & B); split; [exact A|exact B]].
  destruct (pl_ptr (clear pl) K_PART_TITLES =? 0)%Z; [injection E as <- <-; split; [reflexivity|reflexivity]|]. destruct (Z.to_nat _); [discriminate|].
  destruct (read_words_at _ _ _) as [[[b p] d]| |]; try discriminate. cbn [bind] in E. destruct (skipb (b, p) 72) as [c| |]; try discriminate. cbn [bind] in E.
  destruct (title_ids n c) as [[c' l']| |]; try discriminate. cbn [bind] in E. destruct (pointer_close _ _); try discriminate. cbn [bind] in E. injection E as <- <-. split; [reflexivity|]. cbn. congruence.
Qed.
Lemma read_part_by_id_mem_ok h pl part_id ids : counts_ok pl -> alike (read_part_by_id pl part_id ids) (read_part_by_id_mem h pl part_id ids) (gives_part h).
Proof.
  intros C. assert (C0 : counts_ok (clear pl)) by exact C. unfold read_part_by_id, read_part_by_id_mem. cbn zeta.
  assert (R : alike (match ids with Some l => OK (clear pl, l) | None => read_part_ids (clear pl) end) (match ids with Some l => OK (h, clear pl, (l, None)) | None => read_part_ids_mem h (clear pl) end)
    (fun a b => let '(e, l) := a in let '(h', e', (l', p)) := b in e' = e /\ l' = l /\ leaves h h' [p] /\ (pl_err e <> None -> p = None) /\ (l = [] -> p = None) /\ counts_ok e)).
  { destruct ids as [l|]; [cbn; repeat (split; [reflexivity|]); split; [apply -> leaves_none; apply leaves_refl|]; repeat split; auto; intros N; reflexivity|].
    destruct (read_part_ids_reader (clear pl) C0) as (K & R). specialize (R h).
    destruct (read_part_ids (clear pl)) as [[e l]| |], (read_part_ids_mem h (clear pl)) as [[[h' e'] [l' p]]| |]; cbn in R |- *; try contradiction; auto.
    destruct R as (-> & -> & N & L). destruct (K _ _ eq_refl) as (K1 & K2). repeat (split; [reflexivity|]). split; [exact L|]. split; [intros X; apply N, K2, X|]. split; [apply N|]. exact (counts_keep _ _ K1 C0). }
  set (v := match ids with Some l => OK (clear pl, l) | None => _ end) in *. set (m := match ids with Some l => OK (h, clear pl, (l, None)) | None => _ end) in *. clearbody v m.
  destruct v as [[e l]| |], m as [[[h' e'] [l' p]]| |]; cbn [bind alike] in R |- *; try contradiction; auto. destruct R as (-> & -> & L & N1 & N2 & C1).
  destruct (pl_err e) eqn:Er.
  - rewrite (N1 ltac:(discriminate)) in L. cbn. split; [reflexivity|]. split; [reflexivity|]. split; [apply leaves_none, L|]. left. auto.
  - destruct l as [|i0 l]; [rewrite (N2 eq_refl) in L; cbn; split; [reflexivity|]; split; [reflexivity|]; split; [apply leaves_none, L|]; left; auto|].
    destruct (d3_word_binary_search _ _ _ _) as [index| |]; cbn [bind alike]; auto. destruct (leaves_free_opt _ _ _ _ L) as (h2 & E2 & L2). rewrite E2. cbn [bind].
    destruct index as [i|]; [|cbn; split; [reflexivity|]; split; [reflexivity|]; split; [exact L2|]; left; auto].
    pose proof (read_part_mem_ok h2 e (Z.of_nat i) C1) as R. destruct (read_part e (Z.of_nat i)) as [[e2 p2]| |], (read_part_mem h2 e (Z.of_nat i)) as [[[[h3 e3] p3] ps]| |]; cbn in R |- *; try contradiction; auto.
    destruct R as (-> & -> & L3 & F). split; [reflexivity|]. split; [reflexivity|]. split; [|exact F]. pose proof (leaves_trans _ _ _ _ _ L2 L3) as L4. rewrite app_nil_r in L4. exact L4.
Qed.
Lemma free_part_ok h h' ps : leaves h h' ps -> exists h'', free_part h' ps = OK h'' /\ leaves_nothing h h''.
Proof. intros L. apply (leaves_free_all ps h h' []). rewrite app_nil_r. exact L. Qed.

(** ** All element ids *)
Lemma add_ids_mem_ok h0 h pl all p reader mem : counts_ok pl -> reader_ok reader mem -> leaves h0 h [p] -> (p = None <-> all = None) -> all <> Some [] ->
  alike (add_ids pl all reader) (add_ids_mem h pl all p mem) (fun a b => let '(e, l) := a in let '(h', e', l', q) := b in
    e' = e /\ l' = l /\ leaves h0 h' [q] /\ (q = None <-> l = None) /\ l <> Some [] /\ counts_ok e).
Proof.
  intros C R L N Ne. unfold add_ids, add_ids_mem. destruct (R pl C) as (K & Ra). specialize (Ra h). 
  destruct (reader pl) as [[e l]| |], (mem h pl) as [[[h1 e'] [l' q]]| |]; cbn [bind alike gives_array] in Ra |- *; try contradiction; auto. destruct Ra as (-> & -> & Nq & L1).
  destruct (K _ _ eq_refl) as (K1 & _). pose proof (counts_keep _ _ K1 C) as C1. pose proof (leaves_trans _ _ _ _ _ L L1) as L2. cbn [app] in L2.
  destruct l as [|i0 l].
  - rewrite (proj2 Nq eq_refl) in L2. cbn. split; [reflexivity|]. split; [reflexivity|]. split; [apply leaves_none, L2|]. split; [exact N|]. split; [exact Ne|exact C1].
  - destruct (insert_sorted all (i0 :: l)) as [r| |] eqn:Ei; cbn [bind alike]; auto.
    destruct (leaves_realloc h0 h1 [q] p (Z.of_nat (length r))) as (h2 & s & E2 & L3); [eapply leaves_perm; [|exact L2]; apply perm_swap|]. rewrite E2. cbn [bind].
    destruct (leaves_free_opt h0 h2 [Some s] q) as (h3 & E3 & L4); [eapply leaves_perm; [|exact L3]; apply perm_swap|]. rewrite E3. cbn.
    split; [reflexivity|]. split; [reflexivity|]. split; [exact L4|]. split; [split; discriminate|]. split; [|exact C1]. intros X. injection X as ->.
    destruct all as [[|d dst]|]; [congruence| |discriminate]. cbn [insert_sorted] in Ei.
    destruct (insert_into_cases (d :: dst) (i0 :: l)) as (i & _ & Q); try discriminate. rewrite Q in Ei. destruct (_ <=? _); [|discriminate]. injection Ei as Ei.
    apply app_eq_nil in Ei as [_ Ei]. discriminate.
Qed.
Lemma read_all_element_ids_mem_ok h pl : counts_ok pl -> alike (read_all_element_ids pl) (read_all_element_ids_mem h pl) (gives_array h).
Proof.
  intros C. unfold read_all_element_ids, read_all_element_ids_mem.
  assert (St : forall e h1 all p reader mem (k : plot * option (list Z) -> res (plot * list Z)) (m : heap * plot * option (list Z) * option ptr -> res (heap * plot * held Z)),
    counts_ok e -> reader_ok reader mem -> leaves h h1 [p] -> (p = None <-> all = None) -> all <> Some [] ->
    (forall e' h' l q, counts_ok e' -> leaves h h' [q] -> (q = None <-> l = None) -> l <> Some [] -> alike (k (e', l)) (m (h', e', l, q)) (gives_array h)) ->
    alike (bind (add_ids e all reader) k) (bind (add_ids_mem h1 e all p mem) m) (gives_array h)).
  { intros e h1 all p reader mem k m C1 R L N Ne Hk. pose proof (add_ids_mem_ok h h1 e all p reader mem C1 R L N Ne) as X.
    destruct (add_ids e all reader) as [[e2 l]| |], (add_ids_mem h1 e all p mem) as [[[[h2 e2'] l'] q]| |]; cbn in X |- *; try contradiction; auto.
    destruct X as (-> & -> & L2 & N2 & Ne2 & C2). apply Hk; assumption. }
  assert (L0 : leaves h h [None]) by (apply -> leaves_none; apply leaves_refl).
  apply St; [exact C|exact solid_ids_reader|exact L0|tauto|discriminate|]. intros e1 h1 l1 q1 C1 L1 N1 Ne1.
  apply St; [exact C1|exact beam_ids_reader|exact L1|exact N1|exact Ne1|]. intros e2 h2 l2 q2 C2 L2 N2 Ne2.
  apply St; [exact C2|exact shell_ids_reader|exact L2|exact N2|exact Ne2|]. intros e3 h3 l3 q3 C3 L3 N3 Ne3.
  apply St; [exact C3|exact thick_shell_ids_reader|exact L3|exact N3|exact Ne3|]. intros e4 h4 l4 q4 C4 L4 N4 Ne4.
  cbn. split; [reflexivity|]. split; [reflexivity|]. split; [|exact L4]. rewrite N4. destruct l4 as [[|x l]|]; cbn; [congruence| |tauto]. split; discriminate.
Qed.

(** ** Nodes of a part *)
(** Ids that were read are never without connectivity unless reading it fails. *)
Definition paired {A} (ids : plot -> res (plot * list Z)) (cons : plot -> res (plot * list A)) : Prop :=
  forall pl pl1 l pl2, counts_ok pl -> ids pl = OK (pl1, l) -> l <> [] -> cons pl1 = OK (pl2, []) -> pl_err pl2 <> None.
Lemma read_ids_some pl k num pl1 l : read_ids pl k num = OK (pl1, l) -> l <> [] -> num <> 0%Z.
Proof. intros E N ->. cbn in E. congruence. Qed.
Lemma read_con_none {A} pl num w k (f : Z -> list Z -> nat -> res A) pl2 : read_con pl num w k f = OK (pl2, []) -> (0 < num)%Z -> pl_err pl2 <> None.
Proof.
  intros E N. unfold read_con in E. replace (num <=? 0)%Z with false in E by (symmetry; apply Z.leb_gt; exact N).
  destruct (read_at (clear pl) (u64 (w * num)) (pl_ptr (clear pl) k)) as [[pl3 d]| |] eqn:Er; try discriminate. cbn [bind] in E. destruct d as [d|].
  - destruct (build _ _ _) as [r| |] eqn:Eb; try discriminate. cbn [bind] in E. injection E as _ ->. apply build_len in Eb. cbn in Eb. lia.
  - injection E as <-. unfold read_at in Er. destruct (read_bytes_at _ _ _) as [[pl4 d2]| |] eqn:Eb; try discriminate. cbn [bind] in Er. injection Er as <- Ed. destruct d2; [discriminate|].
    unfold read_bytes_at in Eb. destruct (read_words_at _ _ _) as [[[b p] x]| |]; try discriminate. cbn [bind] in Eb. destruct (pointer_close b p); try discriminate. cbn [bind] in Eb. destruct (d_err b); [|discriminate]. injection Eb as <-. discriminate.
Qed.
Lemma u64_zero : u64 0 = 0%Z. Proof. reflexivity. Qed.
Lemma paired_of {A} k f w k2 (g : Z -> list Z -> nat -> res A) (num : plot -> Z) :
  (forall pl, num pl = pl_cd pl f \/ num pl = u64 (pl_cd pl f)) -> In f [NUMNP; NEL8; NEL2; NEL4; NELT; NMMAT] -> (forall pl, num pl = 0%Z -> True) ->
  paired (fun pl => read_ids pl k (num pl)) (fun pl => read_con pl (pl_cd pl f) w k2 g).
Proof.
  intros Hn I _ pl pl1 l pl2 C E1 N E2. destruct (read_ids_keeps _ _ _ _ _ E1) as (K & _). rewrite K in E2. eapply read_con_none; [exact E2|].
  pose proof (read_ids_some _ _ _ _ _ E1 N) as N0. specialize (C f I). destruct (Hn pl) as [Q|Q]; rewrite Q in N0; [lia|].
  destruct (Z.eq_dec (pl_cd pl f) 0) as [Z0|]; [rewrite Z0, u64_zero in N0; congruence|lia].
Qed.
Lemma solid_paired : paired read_solid_element_ids read_solid_elements.
Proof. apply (paired_of K_EL8_IDS NEL8 _ _ _ (fun pl => u64 (pl_cd pl NEL8))); [auto|cbn; tauto|trivial]. Qed.
Lemma beam_paired : paired read_beam_element_ids read_beam_elements.
Proof. apply (paired_of K_EL2_IDS NEL2 _ _ _ (fun pl => pl_cd pl NEL2)); [auto|cbn; tauto|trivial]. Qed.
Lemma shell_paired : paired read_shell_element_ids read_shell_elements.
Proof. apply (paired_of K_EL4_IDS NEL4 _ _ _ (fun pl => pl_cd pl NEL4)); [auto|cbn; tauto|trivial]. Qed.
Lemma thick_shell_paired : paired read_thick_shell_element_ids read_thick_shell_elements.
Proof. apply (paired_of K_ELT_IDS NELT _ _ _ (fun pl => pl_cd pl NELT)); [auto|cbn; tauto|trivial]. Qed.

Lemma add_element_mem_ok {A} h0 h qs f pl st els ids (cns : option (list A)) rid midm rcon mcon nodes :
  counts_ok pl -> leaves h0 h qs -> reader_ok rid midm -> reader_ok rcon mcon -> paired rid rcon ->
  alike (add_element f pl st els ids cns rid rcon nodes) (add_element_mem h f pl st els ids cns midm mcon nodes) (fun a b => let '(e, s) := a in let '(h', e', s') := b in
    e' = e /\ s' = s /\ counts_ok e /\ exists ls, leaves h0 h' (ls ++ qs) /\ ~ In None ls /\
    (els = [] \/ cns <> None -> ls = []) /\
    (els <> [] -> ids <> None -> cns = None -> (exists e1 l, rcon pl = OK (e1, l) /\ l <> []) -> ls <> [])).
Proof.
  intros C L Ri Rc Pa. unfold add_element, add_element_mem. destruct els as [|i0 els].
  { cbn. split; [reflexivity|]. split; [reflexivity|]. split; [exact C|]. exists []. split; [exact L|]. split; [intros []|]. split; [reflexivity|]. congruence. }
  (* ids *)
  assert (R : alike (match ids with Some l => OK (pl, Some l) | None => do ' (pl, l) <- rid pl; OK (match pl_err pl with Some _ => clear pl | None => pl end, null_if_empty l) end)
    (match ids with Some l => OK (h, pl, Some l, None) | None => do ' (h, pl, (l, p)) <- midm h pl; OK (h, match pl_err pl with Some _ => clear pl | None => pl end, null_if_empty l, p) end)
    (fun a b => let '(e, l) := a in let '(h', e', l', p) := b in e' = e /\ l' = l /\ leaves h0 h' (p :: qs) /\ counts_ok e /\ (l = None -> p = None) /\ (ids <> None -> e = pl /\ p = None /\ l <> None) /\
      (p <> None -> forall e2, rcon e = OK (e2, []) -> pl_err e2 <> None))).
  { destruct ids as [l|].
    - cbn. split; [reflexivity|]. split; [reflexivity|]. split; [apply -> leaves_none; exact L|]. split; [exact C|]. split; [reflexivity|]. split; [intros _; repeat split; discriminate|]. congruence.
    - destruct (Ri pl C) as (K & Ra). specialize (Ra h). destruct (rid pl) as [[e l]| |] eqn:Er, (midm h pl) as [[[h1 e'] [l' p]]| |]; cbn [bind alike gives_array] in Ra |- *; try contradiction; auto.
      destruct Ra as (-> & -> & Np & L1). destruct (K _ _ eq_refl) as (K1 & K2). pose proof (leaves_trans _ _ _ _ _ L L1) as L2. cbn [app] in L2.
      split; [reflexivity|]. split; [reflexivity|]. split; [exact L2|]. split; [destruct (pl_err e); exact (counts_keep _ _ K1 C)|]. split; [intros X; apply Np; destruct l; [reflexivity|discriminate]|]. split; [congruence|].
      intros Nn e2 E2. assert (Nl : l <> []) by (intros ->; apply Nn, Np; reflexivity). destruct (pl_err e) eqn:Ee; [exfalso; apply Nl, K2; discriminate|]. exact (Pa pl e l e2 C Er Nl E2). }
  set (v := match ids with Some l => OK (pl, Some l) | None => _ end) in *. set (m := match ids with Some l => OK (h, pl, Some l, None) | None => _ end) in *. clearbody v m.
  destruct v as [[e l]| |], m as [[[[h1 e'] l'] p]| |]; cbn [bind alike] in R |- *; try contradiction; auto. destruct R as (-> & -> & L1 & C1 & Nl & Gi & Pe).
  destruct l as [l|].
  2:{ rewrite (Nl eq_refl) in L1. cbn. split; [reflexivity|]. split; [reflexivity|]. split; [exact C1|]. exists []. split; [apply leaves_none, L1|]. split; [intros []|]. split; [reflexivity|]. intros _ Hi. destruct (Gi Hi) as (_ & _ & X). congruence. }
  (* connectivity *)
  destruct cns as [cns|].
  - cbn [bind]. destruct (push_elements _ _ _ _ _ _) as [s| |]; cbn [bind alike]; auto. destruct (leaves_free_opt _ _ _ _ L1) as (h2 & E2 & L2). rewrite E2. cbn.
    split; [reflexivity|]. split; [reflexivity|]. split; [exact C1|]. exists []. split; [exact L2|]. split; [intros []|]. split; [reflexivity|]. congruence.
  - destruct (Rc e C1) as (K & Ra). specialize (Ra h1). destruct (rcon e) as [[e2 cl]| |] eqn:Er, (mcon h1 e) as [[[h2 e2'] [cl' q]]| |]; cbn [bind alike gives_array] in Ra |- *; try contradiction; auto.
    destruct Ra as (-> & -> & Nq & L2). destruct (K _ _ eq_refl) as (K1 & K2). pose proof (counts_keep _ _ K1 C1) as C2. pose proof (leaves_trans _ _ _ _ _ L1 L2) as L3. cbn [app] in L3.
    destruct (pl_err e2) as [er|] eqn:Ee.
    + rewrite (K2 ltac:(discriminate)) in *. rewrite (proj2 Nq eq_refl) in L3. apply leaves_none in L3. destruct (leaves_free_opt _ _ _ _ L3) as (h3 & E3 & L4). rewrite E3. cbn [bind null_if_empty alike].
      split; [reflexivity|]. split; [reflexivity|]. split; [exact C2|]. exists []. split; [exact L4|]. split; [intros []|]. split; [reflexivity|].
      intros _ Hi _ (e1 & x & E1 & Nx). destruct (Gi Hi) as (-> & _). rewrite Er in E1. injection E1 as <- <-. congruence.
    + cbn [bind]. destruct cl as [|c0 cl].
      * cbn [null_if_empty]. rewrite (proj2 Nq eq_refl) in L3. assert (p = None) as -> by (destruct p as [p|]; [exfalso; apply (Pe ltac:(discriminate) e2 eq_refl); exact Ee|reflexivity]).
        cbn. split; [reflexivity|]. split; [reflexivity|]. split; [exact C2|]. exists []. split; [do 2 apply leaves_none; exact L3|]. split; [intros []|]. split; [reflexivity|].
        intros _ Hi _ (e1 & x & E1 & Nx). destruct (Gi Hi) as (-> & _). rewrite Er in E1. injection E1 as <- <-. congruence.
      * cbn [null_if_empty]. destruct (push_elements _ _ _ _ _ _) as [s| |]; cbn [bind alike]; auto.
        destruct (leaves_free_opt h0 h2 (q :: qs) p) as (h3 & E3 & L4); [eapply leaves_perm; [|exact L3]; apply perm_swap|]. rewrite E3. cbn.
        split; [reflexivity|]. split; [reflexivity|]. split; [exact C2|]. exists [q]. split; [exact L4|]. split; [intros [X|[]]; discriminate (proj1 Nq X)|].
        split; [intros [X|X]; [discriminate|congruence]|]. discriminate.
Qed.
Lemma part_nodes_mem_ok h0 h f pl p t node_ids : counts_ok pl -> leaves h0 h [node_ids] ->
  alike (part_nodes f pl p t) (part_nodes_mem h f pl p t node_ids) (fun a b => let '(e, l) := a in let '(h', e', l', q) := b in
    e' = e /\ l' = l /\ exists ls, leaves h0 h' (Some q :: ls) /\ ~ In None ls /\ (connectivity_passed p t -> ls = []) /\ (solids_read pl p t -> ls <> [])).
Proof.
  intros C L. unfold part_nodes, part_nodes_mem. cbn zeta. mal L. rename M into L0.
  set (cap := (length (p_solid_ids p) * 8 + length (p_beam_ids p) * 2 + length (p_shell_ids p) * 4 + length (p_thick_shell_ids p) * 8)). clearbody cap.
  generalize {| n_cells := repeat None cap; n_num := 0 |}. intros st.
  pose proof (add_element_mem_ok h0 h1 _ f pl st (p_solid_ids p) (t_solid_ids t) (t_solid_cons t) _ _ _ _ c_nodes C L0 solid_ids_reader solids_reader solid_paired) as R.
  match type of R with alike ?v ?m _ => destruct v as [[e1 s1]| |], m as [[[h2 ?] ?]| |]; cbn [bind alike] in R |- *; try contradiction; auto end.
  destruct R as (-> & -> & C1 & l1 & L1 & N1 & P1 & Q1).
  pose proof (add_element_mem_ok h0 h2 _ f e1 s1 (p_beam_ids p) (t_beam_ids t) (t_beam_cons t) _ _ _ _ bc_nodes C1 L1 beam_ids_reader beams_reader beam_paired) as R.
  match type of R with alike ?v ?m _ => destruct v as [[e2 s2]| |], m as [[[h3 ?] ?]| |]; cbn [bind alike] in R |- *; try contradiction; auto end.
  destruct R as (-> & -> & C2 & l2 & L2 & N2 & P2 & _).
  pose proof (add_element_mem_ok h0 h3 _ f e2 s2 (p_shell_ids p) (t_shell_ids t) (t_shell_cons t) _ _ _ _ c_nodes C2 L2 shell_ids_reader shells_reader shell_paired) as R.
  match type of R with alike ?v ?m _ => destruct v as [[e3 s3]| |], m as [[[h4 ?] ?]| |]; cbn [bind alike] in R |- *; try contradiction; auto end.
  destruct R as (-> & -> & C3 & l3 & L3 & N3 & P3 & _).
  pose proof (add_element_mem_ok h0 h4 _ f e3 s3 (p_thick_shell_ids p) (t_thick_shell_ids t) (t_thick_shell_cons t) _ _ _ _ c_nodes C3 L3 thick_shell_ids_reader thick_shells_reader thick_shell_paired) as R.
  match type of R with alike ?v ?m _ => destruct v as [[e4 s4]| |], m as [[[h5 ?] ?]| |]; cbn [bind alike] in R |- *; try contradiction; auto end.
  destruct R as (-> & -> & C4 & l4 & L4 & N4 & P4 & _).
  set (ls := l4 ++ l3 ++ l2 ++ l1).
  assert (L5 : leaves h0 h5 (node_ids :: Some q :: ls)).
  { eapply leaves_perm; [|exact L4]. unfold ls. rewrite !app_assoc. generalize (((l4 ++ l3) ++ l2) ++ l1). intros x.
    eapply perm_trans; [apply Permutation_sym, Permutation_middle|]. eapply perm_trans; [apply perm_skip; apply Permutation_sym, Permutation_middle|]. rewrite app_nil_r. apply perm_swap. }
  destruct (leaves_free_opt _ _ _ _ L5) as (h6 & E6 & L6). rewrite E6. cbn [bind].
  assert (X : exists h7 q', (if (cap =? n_num s4)%nat then OK (h6, q) else h_realloc h6 (Some q) (Z.of_nat (n_num s4))) = OK (h7, q') /\ leaves h0 h7 (Some q' :: ls)).
  { destruct (cap =? n_num s4); [eauto|]. apply leaves_realloc. exact L6. }
  destruct X as (h7 & q' & -> & L7). cbn [bind]. destruct (build _ _ _) as [l| |]; cbn [bind alike]; auto.
  split; [reflexivity|]. split; [reflexivity|]. exists ls. split; [exact L7|]. unfold ls. split; [rewrite !in_app_iff; tauto|]. split.
  - intros (A1 & A2 & A3 & A4). rewrite (P1 A1), (P2 A2), (P3 A3), (P4 A4). reflexivity.
  - intros (A1 & A2 & A3 & A4) E. apply app_eq_nil in E as [_ E]. apply app_eq_nil in E as [_ E]. apply app_eq_nil in E as [_ E]. exact (Q1 A1 A2 A3 A4 E).
Qed.
Lemma part_get_node_ids2_mem_ok h pl p node_ids t : counts_ok pl ->
  alike (part_get_node_ids2 pl p node_ids t) (part_get_node_ids2_mem h pl p node_ids t) (fun a b =>
    match b with
    | (h', e', Some (l', q)) => e' = fst a /\ l' = snd a /\ exists ls, leaves h h' (Some q :: ls) /\ ~ In None ls /\ (connectivity_passed p t -> ls = []) /\ (node_ids <> None -> solids_read (clear pl) p t -> ls <> [])
    | (h', e', None) => e' = fst a /\ snd a = [] /\ leaves_nothing h h'
    end).
Proof.
  intros C. assert (C0 : counts_ok (clear pl)) by exact C. unfold part_get_node_ids2, part_get_node_ids2_mem. cbn zeta.
  assert (R : alike (match node_ids with Some l => OK (clear pl, l) | None => read_node_ids (clear pl) end) (match node_ids with Some l => OK (h, clear pl, (l, None)) | None => read_node_ids_mem h (clear pl) end)
    (fun a b => let '(e, l) := a in let '(h', e', (l', p)) := b in e' = e /\ l' = l /\ leaves h h' [p] /\ (pl_err e <> None -> p = None) /\ (node_ids <> None -> e = clear pl) /\ counts_ok e)).
  { destruct node_ids as [l|]; [cbn; repeat (split; [reflexivity|]); split; [apply -> leaves_none; apply leaves_refl|]; repeat split; auto|].
    destruct (node_ids_reader (clear pl) C0) as (K & R). specialize (R h).
    destruct (read_node_ids (clear pl)) as [[e l]| |], (read_node_ids_mem h (clear pl)) as [[[h' e'] [l' q]]| |]; cbn in R |- *; try contradiction; auto.
    destruct R as (-> & -> & N & L). destruct (K _ _ eq_refl) as (K1 & K2). repeat (split; [reflexivity|]). split; [exact L|]. split; [intros X; apply N, K2, X|]. split; [congruence|]. exact (counts_keep _ _ K1 C0). }
  set (v := match node_ids with Some l => OK (clear pl, l) | None => _ end) in *. set (m := match node_ids with Some l => OK (h, clear pl, (l, None)) | None => _ end) in *. clearbody v m.
  destruct v as [[e l]| |], m as [[[h' e'] [l' q]]| |]; cbn [bind alike] in R |- *; try contradiction; auto. destruct R as (-> & -> & L & N1 & N2 & C1).
  destruct (pl_err e) eqn:Er.
  - rewrite (N1 ltac:(discriminate)) in L. cbn. split; [reflexivity|]. split; [reflexivity|]. apply leaves_none, L.
  - pose proof (part_nodes_mem_ok h h' (node_lookup l) e p t q C1 L) as R. destruct (part_nodes _ e p t) as [[e2 r]| |], (part_nodes_mem h' _ e p t q) as [[[[h2 e2'] r'] q']| |]; cbn [bind alike] in R |- *; try contradiction; auto.
    destruct R as (-> & -> & ls & L2 & N3 & P & Q). split; [reflexivity|]. split; [reflexivity|]. exists ls. split; [exact L2|]. split; [exact N3|]. split; [exact P|]. intros X Y. rewrite (N2 X) in Q. exact (Q Y).
Qed.
Lemma part_get_node_indices2_mem_ok h pl p t : counts_ok pl -> alike (part_get_node_indices2 pl p t) (part_get_node_indices2_mem h pl p t) (fun a b =>
    let '(e, l) := a in let '(h', e', l', q) := b in
    e' = e /\ l' = l /\ exists ls, leaves h h' (Some q :: ls) /\ ~ In None ls /\ (connectivity_passed p t -> ls = []) /\ (solids_read (clear pl) p t -> ls <> [])).
Proof. intros C. apply (part_nodes_mem_ok h h _ (clear pl) p t None); [exact C|]. apply -> leaves_none. apply leaves_refl. Qed.
Lemma part_get_num_nodes2_mem_ok h pl p t : counts_ok pl -> alike (part_get_num_nodes2 pl p t) (part_get_num_nodes2_mem h pl p t) (fun a b =>
    let '(e, n) := a in let '(h', e', n') := b in e' = e /\ n' = n /\ exists ls, leaves h h' ls /\ ~ In None ls /\ (connectivity_passed p t -> ls = []) /\ (solids_read (clear pl) p t -> ls <> [])).
Proof.
  intros C. unfold part_get_num_nodes2, part_get_num_nodes2_mem. pose proof (part_get_node_indices2_mem_ok h pl p t C) as R.
  destruct (part_get_node_indices2 pl p t) as [[e l]| |], (part_get_node_indices2_mem h pl p t) as [[[[h' e'] l'] q]| |]; cbn [bind alike] in R |- *; try contradiction; auto.
  destruct R as (-> & -> & ls & L & X). destruct (leaves_free _ _ _ _ L) as (h2 & E2 & L2). rewrite E2. cbn. split; [reflexivity|]. split; [reflexivity|]. exists ls. auto.
Qed.
