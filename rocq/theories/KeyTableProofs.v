(** * Proofs about the keyword table *)
From Coq Require Import Sorting.Sorted Sorting.Permutation.
From Verif Require Import CBase CBaseFacts SearchModel SearchSpec SearchProofs StringProofs KeyTableModel KeyTableSpec.

(** ** shifting *)
Lemma shift_right_spec {A} k : forall (l : list A) n z, n = length l - k -> k <= length l ->
  exists y, shift_right n (l ++ [z]) (length l) = OK (firstn k l ++ y :: skipn k l).
Proof.
  induction l as [|x l IH] using rev_ind; intros n z -> Hk.
  - simpl in *. replace k with 0 by lia. exists z. reflexivity.
  - destruct (Nat.eq_dec k (length (l ++ [x]))) as [->|Hne].
    + exists z. rewrite Nat.sub_diag. cbn [shift_right]. rewrite firstn_all, skipn_all. reflexivity.
    + rewrite app_length in *. simpl length in *.
      replace (length l + 1 - k) with (S (length l - k)) by lia.
      cbn [shift_right]. replace (length l + 1 - 1) with (length l) by lia.
      rewrite <- app_assoc. cbn [app].
      assert (E1 : aget (l ++ [x; z]) (length l) = OK x).
      { unfold aget. rewrite nth_error_app2, Nat.sub_diag by lia. reflexivity. }
      rewrite E1. cbn [bind].
      replace (l ++ [x; z]) with ((l ++ [x]) ++ z :: []) by (rewrite <- app_assoc; reflexivity).
      replace (length l + 1) with (length (l ++ [x])) by (rewrite app_length; reflexivity).
      rewrite aset_at. cbn [bind].
      assert (Hgen : forall m (q : list A) n, n <= length q -> m = length q - n ->
        forall a t y, a = q ++ [y] -> shift_right m (a ++ t) (length q) =
          do r <- shift_right m a (length q); OK (r ++ t)).
      { clear. induction m as [|m IHm]; intros q n Hn Hm a t y ->; [reflexivity|].
        cbn [shift_right]. destruct q as [|w q _] using rev_ind; [simpl in *; lia|].
        rewrite !app_length in *. simpl length in *. replace (length q + 1 - 1) with (length q) by lia.
        assert (E1 : aget (((q ++ [w]) ++ [y]) ++ t) (length q) = OK w).
        { unfold aget. rewrite <- !app_assoc. rewrite nth_error_app2, Nat.sub_diag by lia. reflexivity. }
        assert (E2 : aget ((q ++ [w]) ++ [y]) (length q) = OK w).
        { unfold aget. rewrite <- !app_assoc. rewrite nth_error_app2, Nat.sub_diag by lia. reflexivity. }
        rewrite E1, E2. cbn [bind].
        replace (((q ++ [w]) ++ [y]) ++ t) with ((q ++ [w]) ++ y :: t) by (rewrite <- !app_assoc; reflexivity).
        replace (length q + 1) with (length (q ++ [w])) by (rewrite app_length; reflexivity).
        rewrite !aset_at. cbn [bind].
        replace ((q ++ [w]) ++ w :: t) with ((q ++ [w]) ++ ([w] ++ t)) by reflexivity.
        rewrite (IHm q n ltac:(lia) ltac:(lia) (q ++ [w]) ([w] ++ t) w eq_refl).
        rewrite (IHm q n ltac:(lia) ltac:(lia) (q ++ [w]) [w] w eq_refl).
        destruct (shift_right m (q ++ [w]) (length q)); cbn [bind]; try reflexivity.
        rewrite <- app_assoc. reflexivity. }
      rewrite (Hgen (length l - k) l k ltac:(lia) eq_refl (l ++ [x]) [x] x eq_refl).
      destruct (IH (length l - k) x eq_refl ltac:(lia)) as [y Ey]. rewrite Ey. cbn [bind].
      exists y. rewrite <- app_assoc. cbn [app]. f_equal.
      rewrite firstn_app, skipn_app. replace (k - length l) with 0 by lia. cbn [firstn skipn]. rewrite app_nil_r. reflexivity.
Qed.

Lemma insert_at_spec {A} (l : list A) z v k : k <= length l ->
  (do arr <- shift_right (length l - k) (l ++ [z]) (length l); aset arr k v) = OK (firstn k l ++ v :: skipn k l).
Proof.
  intros Hk. destruct (shift_right_spec k l _ z eq_refl Hk) as [y ->]. cbn [bind].
  assert (L : length (firstn k l) = k) by (rewrite firstn_length; lia).
  pose proof (aset_at (firstn k l) y (skipn k l) v) as E. rewrite L in E. exact E.
Qed.

(** ** the run of a name in a sorted table *)
Lemma bytes_lt_irrefl a : ~ bytes_lt a a.
Proof. intros H. apply strcmp_lt_bytes in H. rewrite strcmp_refl in H. lia. Qed.

Lemma bytes_total a b : bytes_lt a b \/ a = b \/ bytes_lt b a.
Proof.
  destruct (strcmp_range a b) as [H|[H|H]].
  - left. apply strcmp_lt_bytes. lia.
  - right; left. apply strcmp_eq. assumption.
  - right; right. apply strcmp_lt_bytes. rewrite strcmp_antisym. lia.
Qed.

Lemma bytes_le_lt_trans a b c : bytes_le a b -> bytes_lt b c -> bytes_lt a c.
Proof.
  intros [->|H] H2; [assumption|]. apply strcmp_lt_bytes in H, H2. apply strcmp_lt_bytes.
  eapply strcmp_lt_trans; eassumption.
Qed.
Lemma bytes_lt_le_trans a b c : bytes_lt a b -> bytes_le b c -> bytes_lt a c.
Proof.
  intros H [<-|H2]; [assumption|]. apply strcmp_lt_bytes in H, H2. apply strcmp_lt_bytes.
  eapply strcmp_lt_trans; eassumption.
Qed.

Definition below (n : cstr) (l : list cstr) := Forall (fun x => bytes_lt x n) l.
Definition above (n : cstr) (l : list cstr) := Forall (fun x => bytes_lt n x) l.
Definition equal_to (n : cstr) (l : list cstr) := Forall (fun x => x = n) l.

Lemma sorted_run l n : names_sorted l ->
  exists pre run post, l = pre ++ run ++ post /\ below n pre /\ equal_to n run /\ above n post.
Proof.
  induction l as [|x l IH]; intros H.
  - exists [], [], []. repeat constructor.
  - inversion H as [|? ? Hs Hf]; subst. destruct (IH Hs) as (pre & run & post & E & B & Q & U).
    destruct (bytes_total x n) as [L|[L|L]].
    + exists (x :: pre), run, post. rewrite E. repeat split; auto. constructor; assumption.
    + subst x. exists [], (n :: run), post. repeat split; auto; [|constructor|constructor; auto].
      destruct pre as [|y pre]; [rewrite E; reflexivity|].
      exfalso. inversion B; subst. rewrite Forall_forall in Hf. specialize (Hf y ltac:(left; reflexivity)).
      eapply bytes_lt_irrefl. eapply bytes_le_lt_trans; eassumption.
    + assert (pre = [] /\ run = []) as [-> ->].
      { split.
        - destruct pre as [|y pre]; [reflexivity|]. exfalso. inversion B; subst. rewrite Forall_forall in Hf.
          specialize (Hf y ltac:(left; reflexivity)). eapply bytes_lt_irrefl.
          eapply bytes_le_lt_trans; [exact Hf|]. apply strcmp_lt_bytes. eapply strcmp_lt_trans; apply strcmp_lt_bytes; eassumption.
        - destruct run as [|y run]; [reflexivity|]. exfalso. inversion Q; subst. rewrite Forall_forall in Hf.
          specialize (Hf n ltac:(apply in_or_app; right; left; reflexivity)).
          eapply bytes_lt_irrefl. eapply bytes_le_lt_trans; eassumption. }
      exists [], [], (x :: post). simpl in E. subst l. repeat split; auto; try constructor; assumption.
Qed.

Section Run.
  Variables (pre run post : list cstr) (n : cstr).
  Hypothesis Hpre : below n pre.
  Hypothesis Hrun : equal_to n run.
  Hypothesis Hpost : above n post.
  Let l := pre ++ run ++ post.

  Lemma run_get i : i < length l -> exists x, aget l i = OK x /\
    ((strcmp x n =? 0)%Z = true <-> length pre <= i < length pre + length run) /\
    (x = n <-> length pre <= i < length pre + length run).
  Proof using Hpre Hrun Hpost.
    intros Hi. destruct (aget_lt l i Hi) as [x Ex]. exists x. split; [assumption|].
    assert (Q : x = n <-> length pre <= i < length pre + length run).
    { apply aget_OK in Ex. unfold l in *. unfold below, equal_to, above in *. rewrite Forall_forall in *.
      destruct (Nat.lt_ge_cases i (length pre)) as [H1|H1].
      - rewrite nth_error_app1 in Ex by assumption. apply nth_error_In in Ex. apply Hpre in Ex.
        split; [intros ->; exfalso; eapply bytes_lt_irrefl; eassumption|lia].
      - rewrite nth_error_app2 in Ex by assumption.
        destruct (Nat.lt_ge_cases (i - length pre) (length run)) as [H2|H2].
        + rewrite nth_error_app1 in Ex by assumption. apply nth_error_In in Ex. apply Hrun in Ex. split; [lia|auto].
        + rewrite nth_error_app2 in Ex by assumption. apply nth_error_In in Ex. apply Hpost in Ex.
          split; [intros ->; exfalso; eapply bytes_lt_irrefl; eassumption|lia]. }
    split; [|exact Q]. rewrite Z.eqb_eq, strcmp_eq. exact Q.
  Qed.

  Lemma run_length : length l = length pre + length run + length post.
  Proof using. unfold l. rewrite !app_length. lia. Qed.

  Lemma skip_equal_run fuel i : length pre <= i <= length pre + length run ->
    length pre + length run - i < fuel ->
    skip_equal fuel l n i = if length post =? 0 then UB else OK (length pre + length run).
  Proof using Hpre Hrun Hpost.
    pose proof run_length as L.
    revert i; induction fuel as [|f IH]; intros i Hi Hf; [lia|]. cbn [skip_equal].
    destruct (Nat.lt_ge_cases i (length l)) as [G|G].
    - destruct (run_get i G) as (x & -> & Q & _). cbn [bind].
      destruct (strcmp x n =? 0)%Z eqn:E.
      + assert (i < length pre + length run) by (apply proj1 in Q; specialize (Q eq_refl); lia). apply IH; lia.
      + assert (i = length pre + length run).
        { destruct (Nat.eq_dec i (length pre + length run)); [assumption|].
          assert (length pre <= i < length pre + length run) as X by lia. apply Q in X. discriminate. }
        subst i. destruct (Nat.eqb_spec (length post) 0); [lia|reflexivity].
    - rewrite aget_UB by assumption. cbn [bind]. destruct (Nat.eqb_spec (length post) 0); [reflexivity|lia].
  Qed.

  Lemma forward_equal_run fuel i : length pre <= i <= length pre + length run ->
    length pre + length run - i < fuel -> forward_equal fuel l n i = OK (length pre + length run).
  Proof using Hpre Hrun Hpost.
    pose proof run_length as L.
    revert i; induction fuel as [|f IH]; intros i Hi Hf; [lia|]. cbn [forward_equal].
    destruct (Nat.ltb_spec i (length l)) as [G|G].
    - destruct (run_get i G) as (x & -> & Q & _). cbn [bind].
      destruct (strcmp x n =? 0)%Z eqn:E.
      + assert (i < length pre + length run) by (apply proj1 in Q; specialize (Q eq_refl); lia). apply IH; lia.
      + f_equal. destruct (Nat.eq_dec i (length pre + length run)); [assumption|].
        assert (length pre <= i < length pre + length run) as X by lia. apply Q in X. discriminate.
    - f_equal. lia.
  Qed.

  Lemma back_equal_run i : length pre <= i < length pre + length run -> back_equal l n i = OK (length pre - 1).
  Proof using Hpre Hrun Hpost.
    pose proof run_length as L.
    induction i as [|i IH]; intros Hi; cbn [back_equal].
    - f_equal. lia.
    - destruct (run_get (S i) ltac:(lia)) as (x & -> & Q & _). cbn [bind].
      rewrite (proj2 Q Hi). destruct (Nat.lt_ge_cases i (length pre)) as [G|G]; [|apply IH; lia].
      destruct i as [|i]; cbn [back_equal]; [f_equal; lia|].
      destruct (run_get (S i) ltac:(lia)) as (y & -> & Q' & _). cbn [bind].
      destruct (strcmp y n =? 0)%Z; [|f_equal; lia]. apply proj1 in Q'. specialize (Q' eq_refl). lia.
  Qed.
End Run.

(** ** position of a new keyword *)
Lemma nth_error_aget {A} (l : list A) i x : nth_error l i = Some x -> i < length l.
Proof. apply nth_error_Some_lt. Qed.

Lemma position_spec ks n pre run post :
  names_sorted (map kw_name ks) -> map kw_name ks = pre ++ run ++ post ->
  below n pre -> equal_to n run -> above n post ->
  (keyword_position ks n = OK (length pre + length run)) \/
  (keyword_position ks n = UB /\ post = [] /\ 2 <= length run).
Proof.
  intros Hs E B Q U. unfold keyword_position.
  destruct ks as [|k0 ks0] eqn:Ek.
  { left. simpl in E. symmetry in E. apply app_eq_nil in E as [-> E]. apply app_eq_nil in E as [-> ->]. reflexivity. }
  rewrite <- Ek in *. assert (Hne : map kw_name ks <> []) by (rewrite Ek; discriminate).
  replace (length ks) with (length (map kw_name ks)) by apply map_length.
  destruct (name_insert_spec (map kw_name ks) n Hne Hs) as (p & f & Ei & Hf1 & Hf2).
 rewrite Ei. cbn [bind]. pose proof (run_length pre run post) as L. rewrite <- E in L.
  destruct f.
  - specialize (Hf1 eq_refl). pose proof (nth_error_Some_lt _ _ _ Hf1) as Hp.
    destruct (run_get pre run post n B Q U p) as (x & Ex & _ & Qx); [rewrite <- E; assumption|].
    rewrite <- E in Ex. apply aget_OK in Ex. rewrite Ex in Hf1. injection Hf1 as ->. apply proj1 in Qx. specialize (Qx eq_refl).
    destruct (Nat.eqb_spec (p + 1) (length (map kw_name ks))) as [G|G]; cbn [negb].
    + left. f_equal. lia.
    + rewrite E. rewrite skip_equal_run by (auto; rewrite <- ?E; lia).
      destruct (Nat.eqb_spec (length post) 0) as [Z0|Z0]; [right|left; reflexivity].
      split; [reflexivity|]. split; [destruct post; [reflexivity|discriminate]|]. lia.
  - left. f_equal. destruct (Hf2 eq_refl) as (Hnin & Hp & F1 & F2).
    assert (run = []) as ->.
    { destruct run as [|r0 run]; [reflexivity|]. exfalso. apply Hnin. rewrite E. inversion Q; subst.
      apply in_or_app. right. left. reflexivity. }
    simpl length in *. rewrite Nat.add_0_r in *. rewrite E in F1, F2. simpl app in F1, F2.
    destruct (Nat.lt_trichotomy p (length pre)) as [G|[G|G]]; [|assumption|]; exfalso.
    + assert (Hin : In (nth p pre []) (skipn p (pre ++ post))).
      { rewrite skipn_app. apply in_or_app. left. rewrite (skipn_nth pre p []) by assumption. left. reflexivity. }
      rewrite Forall_forall in F2. specialize (F2 _ Hin). unfold below in B. rewrite Forall_forall in B.
      specialize (B (nth p pre []) (nth_In _ _ G)). eapply bytes_lt_irrefl.
      eapply bytes_lt_le_trans; [exact B|right; exact F2].
    + assert (Hin : In (nth 0 post []) (firstn p (pre ++ post))).
      { rewrite firstn_app. apply in_or_app. right. destruct post as [|y post]; [simpl length in *; lia|].
        destruct (p - length pre) eqn:Ep; [lia|]. left. reflexivity. }
      rewrite Forall_forall in F1. specialize (F1 _ Hin). unfold above in U. rewrite Forall_forall in U.
      destruct post as [|y post]; [simpl length in *; lia|]. specialize (U y ltac:(left; reflexivity)). simpl in F1.
      eapply bytes_lt_irrefl. eapply bytes_lt_le_trans; [exact U|right; exact F1].
Qed.

Lemma position_tame ks n pre run post :
  names_sorted (map kw_name ks) -> map kw_name ks = pre ++ run ++ post ->
  below n pre -> equal_to n run -> above n post ->
  post <> [] \/ length run <= 1 -> keyword_position ks n = OK (length pre + length run).
Proof.
  intros Hs E B Q U H. destruct (position_spec ks n pre run post Hs E B Q U) as [?|(_ & -> & L)]; [assumption|].
  destruct H; [congruence|lia].
Qed.

(** ** one keyword *)
Definition kb (b : block) : keyword := {| kw_name := fst b; kw_cards := snd b |}.

Lemma callback_fresh ks cur n card ci pos :
  (cur = None \/ ci = None \/ ci = Some 0) -> pos <= length ks ->
  keyword_position ks n = OK pos ->
  key_file_parse_callback {| kd_keywords := ks; kd_current := cur |} n card ci =
  OK {| kd_keywords := firstn pos ks ++ {| kw_name := n; kw_cards := match card with Some c => [c] | None => [] end |} :: skipn pos ks;
        kd_current := Some pos |}.
Proof.
  intros Hf Hp E. unfold key_file_parse_callback. cbn [kd_current kd_keywords].
  replace (match cur, ci with None, _ => true | Some _, None => true | Some _, Some i => i =? 0 end) with true
    by (destruct Hf as [-> | [-> | ->]]; [reflexivity|destruct cur; reflexivity|destruct cur; reflexivity]).
  rewrite E. cbn [bind]. replace (length ks + 1 - 1) with (length ks) by lia.
  pose proof (insert_at_spec ks {| kw_name := [JUNK]; kw_cards := [] |} {| kw_name := n; kw_cards := [] |} pos Hp) as I.
  destruct (shift_right _ _ _) as [arr| |]; cbn [bind] in *; try discriminate.
  rewrite I. cbn [bind kd_current kd_keywords].
  destruct card as [c|]; [|reflexivity].
  assert (L : length (firstn pos ks) = pos) by (rewrite firstn_length; lia).
  set (A := firstn pos ks) in *. set (B := skipn pos ks).
  assert (G : aget (A ++ {| kw_name := n; kw_cards := [] |} :: B) pos = OK {| kw_name := n; kw_cards := [] |}).
  { unfold aget. rewrite nth_error_app2 by lia. rewrite L, Nat.sub_diag. reflexivity. }
  rewrite G. cbn [bind kw_name kw_cards app].
  pose proof (aset_at A {| kw_name := n; kw_cards := [] |} B {| kw_name := n; kw_cards := [c] |}) as S. rewrite L in S.
  rewrite S. reflexivity.
Qed.

Lemma callback_more A kw B pos n c i : length A = pos -> i <> 0 ->
  key_file_parse_callback {| kd_keywords := A ++ kw :: B; kd_current := Some pos |} n (Some c) (Some i) =
  OK {| kd_keywords := A ++ {| kw_name := kw_name kw; kw_cards := kw_cards kw ++ [c] |} :: B; kd_current := Some pos |}.
Proof.
  intros L Hi. unfold key_file_parse_callback. cbn [kd_current kd_keywords].
  destruct (Nat.eqb_spec i 0); [lia|]. cbn [bind kd_current kd_keywords].
  assert (G : aget (A ++ kw :: B) pos = OK kw).
  { unfold aget. rewrite nth_error_app2 by lia. rewrite L, Nat.sub_diag. reflexivity. }
  rewrite G. cbn [bind]. pose proof (aset_at A kw B {| kw_name := kw_name kw; kw_cards := kw_cards kw ++ [c] |}) as S.
  rewrite L in S. rewrite S. reflexivity.
Qed.

Lemma run_cards cards : forall A kw B pos i n rest, length A = pos -> i <> 0 ->
  key_run {| kd_keywords := A ++ kw :: B; kd_current := Some pos |} (card_events n i cards ++ rest) =
  key_run {| kd_keywords := A ++ {| kw_name := kw_name kw; kw_cards := kw_cards kw ++ cards |} :: B; kd_current := Some pos |} rest.
Proof.
  induction cards as [|c cards IH]; intros A kw B pos i n rest L Hi; cbn [card_events app].
  - rewrite app_nil_r. destruct kw; reflexivity.
  - cbn [key_run]. rewrite callback_more by assumption. cbn [bind]. rewrite IH by (auto; lia).
    cbn [kw_name kw_cards]. rewrite <- app_assoc. reflexivity.
Qed.

Lemma run_block ks cur b rest pos : pos <= length ks -> keyword_position ks (fst b) = OK pos ->
  key_run {| kd_keywords := ks; kd_current := cur |} (block_events b ++ rest) =
  key_run {| kd_keywords := firstn pos ks ++ kb b :: skipn pos ks; kd_current := Some pos |} rest.
Proof.
  intros Hp E. destruct b as [n cards]. unfold block_events, kb. cbn [fst snd] in *. destruct cards as [|c cards].
  - cbn [app key_run]. rewrite (callback_fresh ks cur n None None pos) by auto. reflexivity.
  - cbn [card_events app key_run]. rewrite (callback_fresh ks cur n (Some c) (Some 0) pos) by auto. cbn [bind].
    rewrite run_cards by (rewrite ?firstn_length; lia). reflexivity.
Qed.

Lemma run_block_UB ks cur b rest : keyword_position ks (fst b) = UB ->
  key_run {| kd_keywords := ks; kd_current := cur |} (block_events b ++ rest) = UB.
Proof.
  intros E. destruct b as [n cards]. unfold block_events. cbn [fst snd] in *.
  destruct cards as [|c cards]; cbn [card_events app key_run]; unfold key_file_parse_callback; cbn [kd_current kd_keywords].
  - destruct cur; rewrite E; reflexivity.
  - destruct cur; cbn [Nat.eqb]; rewrite E; reflexivity.
Qed.

(** ** all keywords *)
Lemma map_as_block_name ks : map fst (map as_block ks) = map kw_name ks.
Proof. rewrite map_map. reflexivity. Qed.

Lemma named_true n b : named n b = true <-> fst b = n.
Proof. unfold named. destruct (list_eq_dec Z.eq_dec (fst b) n); split; congruence. Qed.

Lemma filter_none {A} (f : A -> bool) l : (forall x, In x l -> f x = false) -> filter f l = [].
Proof.
  induction l as [|x l IH]; intros H; simpl; [reflexivity|]. rewrite (H x) by (left; reflexivity).
  apply IH. intros y Hy. apply H. right. assumption.
Qed.

Lemma split_names ks pre run post : map kw_name ks = pre ++ run ++ post ->
  map kw_name (firstn (length pre + length run) ks) = pre ++ run /\
  map kw_name (skipn (length pre + length run) ks) = post.
Proof.
  intros E. split.
  - rewrite <- firstn_map, E, app_assoc. rewrite <- app_length. apply firstn_app_exact.
  - rewrite <- skipn_map, E, app_assoc. rewrite <- app_length. apply skipn_app_exact.
Qed.

Lemma insert_stable P ks b pre run post :
  stable_sorted P (map as_block ks) ->
  map kw_name ks = pre ++ run ++ post -> below (fst b) pre -> equal_to (fst b) run -> above (fst b) post ->
  let pos := length pre + length run in
  stable_sorted (P ++ [b]) (map as_block (firstn pos ks ++ kb b :: skipn pos ks)).
Proof.
  intros [S1 S2] E B Q U pos. destruct (split_names ks pre run post E) as [E1 E2]. fold pos in E1, E2.
  assert (Epre : Forall (fun x => bytes_le x (fst b)) (pre ++ run)).
  { apply Forall_app; split; eapply Forall_impl; [|exact B| |exact Q]; cbv beta; intros a Ha; [right|left]; auto. }
  split.
  - rewrite map_as_block_name, map_app. cbn [map kb kw_name]. rewrite E1, E2.
    apply StronglySorted_app_mid.
    + rewrite map_as_block_name, E, app_assoc in S1. exact S1.
    + exact Epre.
    + eapply Forall_impl; [|exact U]. cbv beta. intros a Ha. right. assumption.
  - intros n. rewrite filter_app, map_app, filter_app. cbn [map filter].
    assert (Eb : as_block (kb b) = b) by (destruct b; reflexivity). rewrite Eb.
    specialize (S2 n). rewrite <- (firstn_skipn pos ks), map_app, filter_app in S2.
    destruct (named n b) eqn:Nb.
    + apply named_true in Nb. subst n.
      assert (Z : filter (named (fst b)) (map as_block (skipn pos ks)) = []).
      { apply filter_none. intros x Hx. destruct (named (fst b) x) eqn:Nx; [|reflexivity]. exfalso.
        apply named_true in Nx. assert (Hin : In (fst x) post).
        { rewrite <- E2, <- map_as_block_name. apply in_map. assumption. }
        unfold above in U. rewrite Forall_forall in U. apply U in Hin. rewrite Nx in Hin.
        eapply bytes_lt_irrefl; eassumption. }
      rewrite Z in *. rewrite app_nil_r in S2. rewrite S2. reflexivity.
    + rewrite S2, app_nil_r. reflexivity.
Qed.

Lemma run_blocks bs : forall P ks cur, stable_sorted P (map as_block ks) ->
  match key_run {| kd_keywords := ks; kd_current := cur |} (file_events bs) with
  | OK out => stable_sorted (P ++ bs) (map as_block out)
  | UB => ~ tame (P ++ bs)
  | OOF => False
  end.
Proof.
  induction bs as [|b bs IH]; intros P ks cur HS.
  - cbn. rewrite app_nil_r. assumption.
  - unfold file_events. cbn [map concat]. fold (file_events bs).
    pose proof HS as [S1 S2]. rewrite map_as_block_name in S1.
    destruct (sorted_run (map kw_name ks) (fst b) S1) as (pre & run & post & E & B & Q & U).
    assert (Lk : length ks = length pre + length run + length post).
    { rewrite <- (map_length kw_name ks), E, !app_length. lia. }
    destruct (position_spec ks (fst b) pre run post S1 E B Q U) as [Ep|(Ep & Z & L2)].
    + rewrite (run_block ks cur b (file_events bs) (length pre + length run) ltac:(lia) Ep).
      replace (P ++ b :: bs) with ((P ++ [b]) ++ bs) by (rewrite <- app_assoc; reflexivity).
      apply IH. eapply insert_stable; eassumption.
    + rewrite run_block_UB by assumption. intros T.
      destruct (T P b bs eq_refl) as (g & Hg & Lt).
      * rewrite <- S2. 
        assert (X : length run <= length (filter (named (fst b)) (map as_block ks))).
        { transitivity (length (filter (fun x => if list_eq_dec Z.eq_dec x (fst b) then true else false) (map kw_name ks))).
          - rewrite E, !filter_app, !app_length.
            assert (length (filter (fun x => if list_eq_dec Z.eq_dec x (fst b) then true else false) run) = length run); [|lia].
            clear - Q. induction Q as [|x l Hx Hl IHq]; [reflexivity|]. simpl.
            destruct (list_eq_dec Z.eq_dec x (fst b)); [simpl; congruence|congruence].
          - clear. induction ks as [|k ks IHk]; [simpl; lia|]. cbn [map filter].
            change (named (fst b) (as_block k)) with (if list_eq_dec Z.eq_dec (kw_name k) (fst b) then true else false).
            destruct (list_eq_dec Z.eq_dec (kw_name k) (fst b)); cbn [length]; lia. }
        lia.
      * assert (Hin : In g (map as_block ks)).
        { assert (In g (filter (named (fst g)) P)) as Hf by (apply filter_In; split; [assumption|apply named_true; reflexivity]).
          rewrite <- S2 in Hf. apply filter_In in Hf. tauto. }
        assert (Hn : In (fst g) (map kw_name ks)) by (rewrite <- map_as_block_name; apply in_map; assumption).
        rewrite E, Z, app_nil_r in Hn. apply in_app_or in Hn as [Hn|Hn].
        -- unfold below in B. rewrite Forall_forall in B. apply B in Hn. eapply bytes_lt_irrefl.
           eapply bytes_lt_le_trans; [exact Hn|right; exact Lt].
        -- unfold equal_to in Q. rewrite Forall_forall in Q. apply Q in Hn. rewrite Hn in Lt.
           eapply bytes_lt_irrefl; eassumption.
Qed.

Lemma stable_sorted_nil : stable_sorted [] (map as_block []).
Proof. split; [constructor|reflexivity]. Qed.

Lemma block_dec (x y : block) : {x = y} + {x <> y}.
Proof. decide equality; repeat (apply list_eq_dec; intros); auto using Z.eq_dec. Defined.

Lemma stable_permutation bs out : stable_sorted bs out -> Permutation bs out.
Proof.
  intros [_ H]. apply (Permutation_count_occ block_dec). intros x.
  assert (C : forall l, count_occ block_dec l x = count_occ block_dec (filter (named (fst x)) l) x).
  { induction l as [|y l IH]; [reflexivity|]. cbn [filter count_occ].
    destruct (named (fst x) y) eqn:N; cbn [count_occ].
    - destruct (block_dec y x); rewrite IH; reflexivity.
    - destruct (block_dec y x) as [->|]; [|apply IH]. exfalso.
      assert (named (fst x) x = true) by (apply named_true; reflexivity). congruence. }
  rewrite (C bs), (C out), H. reflexivity.
Qed.

(** ** lookups *)
Lemma search_in_run names n pre run post : names_sorted names -> names <> [] ->
  names = pre ++ run ++ post -> below n pre -> equal_to n run -> above n post ->
  exists r, key_file_binary_search names 0 (length names - 1) n = OK r /\
    match r with
    | Some f => length pre <= f < length pre + length run
    | None => run = []
    end.
Proof.
  intros Hs Hne E B Q U. destruct (name_search_spec names n Hne Hs) as (r & Er & Hr).
  exists r. split; [assumption|]. destruct r as [f|].
  - pose proof (nth_error_Some_lt _ _ _ Hr) as Hf.
    destruct (run_get pre run post n B Q U f ltac:(rewrite <- E; assumption)) as (x & Ex & _ & Qx).
    rewrite <- E in Ex. apply aget_OK in Ex. rewrite Hr in Ex. injection Ex as <-. apply Qx. reflexivity.
  - destruct run as [|r0 run]; [reflexivity|]. exfalso. apply Hr. rewrite E. inversion Q; subst.
    apply in_or_app. right. left. reflexivity.
Qed.

Lemma advance_by_spec n : forall j i num, i <= num ->
  advance_by n j i num = (j + Nat.min n (num - i), i + Nat.min n (num - i)).
Proof.
  induction n as [|n IH]; intros j i num H; cbn [advance_by].
  - simpl. f_equal; lia.
  - destruct (Nat.ltb_spec i num).
    + rewrite IH by lia. f_equal; lia.
    + f_equal; lia.
Qed.

Lemma occurrences_run n pre run post : below n pre -> equal_to n run -> above n post ->
  occurrences n (pre ++ run ++ post) = length run.
Proof.
  intros B Q U. unfold occurrences. rewrite !filter_app, !app_length.
  rewrite (filter_none _ pre), (filter_none _ post).
  - simpl. rewrite Nat.add_0_r. clear - Q. induction Q as [|x l Hx Hl IHq]; [reflexivity|]. simpl.
    destruct (list_eq_dec Z.eq_dec x n); [simpl; congruence|congruence].
  - intros x Hx. unfold above in U. rewrite Forall_forall in U. apply U in Hx.
    destruct (list_eq_dec Z.eq_dec x n); [|reflexivity]. subst. exfalso. eapply bytes_lt_irrefl; eassumption.
  - intros x Hx. unfold below in B. rewrite Forall_forall in B. apply B in Hx.
    destruct (list_eq_dec Z.eq_dec x n); [|reflexivity]. subst. exfalso. eapply bytes_lt_irrefl; eassumption.
Qed.

Lemma get_run names n pre run post index : names_sorted names ->
  names = pre ++ run ++ post -> below n pre -> equal_to n run -> above n post ->
  key_file_get names n index =
    if index <? length run then OK (Some (length pre + index))
    else if (length run =? 0) then OK None
    else if index =? length run + length post then UB else OK None.
Proof.
  intros Hs E B Q U. unfold key_file_get.
  pose proof (run_length pre run post) as L. rewrite <- E in L.
  destruct names as [|n0 ns] eqn:En.
  { assert (run = []) as -> by (destruct run; [reflexivity|simpl length in L; lia]). simpl. reflexivity. }
  rewrite <- En in *. assert (Hne : names <> []) by (rewrite En; discriminate). clear En.
  destruct (search_in_run names n pre run post Hs Hne E B Q U) as (r & -> & Hr). cbn [bind].
  destruct r as [f|].
  2:{ subst run. simpl. reflexivity. }
  destruct (Nat.eqb_spec f 0) as [F0|F0]; [destruct (Nat.eqb_spec index 0) as [I0|I0]|]; cbn [andb].
  { destruct (Nat.ltb_spec index (length run)); [|lia]. do 2 f_equal. lia. }
  all: rewrite E; rewrite (back_equal_run pre run post n B Q U f Hr); cbn [bind];
    destruct (run_get pre run post n B Q U (length pre - 1)) as (x & -> & Qx & _); [rewrite <- E; lia|]; cbn [bind].
  all: assert (Ei : (if negb (length pre - 1 =? 0) || negb (strcmp x n =? 0)%Z then length pre - 1 + 1 else length pre - 1) = length pre)
    by (destruct (Nat.eqb_spec (length pre - 1) 0); destruct (strcmp x n =? 0)%Z; cbn [negb orb];
      try (apply proj1 in Qx; specialize (Qx eq_refl)); try lia;
      destruct (Nat.eq_dec (length pre) 0); try lia; assert (X : false = true) by (apply Qx; lia); discriminate).
  all: rewrite Ei; rewrite <- E; rewrite advance_by_spec by lia; cbn [Nat.add].
  all: destruct (Nat.eqb_spec (Nat.min index (length names - length pre)) index) as [Ej|Ej].
  all: try (destruct (Nat.ltb_spec index (length run)); [lia|];
    destruct (Nat.eqb_spec (length run) 0); [lia|]; 
    destruct (Nat.eqb_spec index (length run + length post)); try reflexivity; lia).
  all: rewrite Ej; destruct (Nat.lt_ge_cases (length pre + index) (length names)) as [G|G].
  all: try (rewrite aget_UB by lia; cbn [bind]; destruct (Nat.ltb_spec index (length run)); [lia|];
    destruct (Nat.eqb_spec (length run) 0); [lia|];
    destruct (Nat.eqb_spec index (length run + length post)); try reflexivity; lia).
  all: destruct (run_get pre run post n B Q U (length pre + index)) as (y & Ey & Qy & _); [rewrite <- E; lia|];
    rewrite <- E in Ey; rewrite Ey; cbn [bind].
  all: destruct (strcmp y n =? 0)%Z.
  all: try (apply proj1 in Qy; specialize (Qy eq_refl); destruct (Nat.ltb_spec index (length run)); [reflexivity|lia]).
  all: destruct (Nat.ltb_spec index (length run)); [assert (X : false = true) by (apply Qy; lia); discriminate|].
  all: destruct (Nat.eqb_spec (length run) 0); [lia|];
    destruct (Nat.eqb_spec index (length run + length post)); try reflexivity; lia.
Qed.

Lemma slice_run names n pre run post : names_sorted names ->
  names = pre ++ run ++ post -> below n pre -> equal_to n run -> above n post ->
  run = [] \/ pre <> [] \/ length run = 1 ->
  key_file_get_slice names n = OK (if length run =? 0 then None else Some (length pre, length run)).
Proof.
  intros Hs E B Q U Hc. unfold key_file_get_slice.
  pose proof (run_length pre run post) as L. rewrite <- E in L.
  destruct names as [|n0 ns] eqn:En.
  { assert (run = []) as -> by (destruct run; [reflexivity|simpl length in L; lia]). reflexivity. }
  rewrite <- En in *. assert (Hne : names <> []) by (rewrite En; discriminate). clear En.
  destruct (search_in_run names n pre run post Hs Hne E B Q U) as (r & -> & Hr). cbn [bind].
  destruct r as [f|]; [|subst run; reflexivity].
  destruct Hc as [->|Hc]; [simpl in Hr; lia|].
  assert (Es : (if negb (f =? 0) then do s <- back_equal names n f; OK (s + 1) else OK f) = OK (length pre)).
  { destruct (Nat.eqb_spec f 0); cbn [negb]; [f_equal; lia|].
    rewrite E, (back_equal_run pre run post n B Q U f Hr). cbn [bind]. f_equal.
    destruct Hc as [Hc|Hc]; [destruct pre; [congruence|simpl; lia]|lia]. }
  rewrite Es. cbn [bind].
  assert (Ee : (if negb (f =? length names - 1) then do e <- forward_equal (S (length names)) names n f; OK (e - 1) else OK f)
     = OK (length pre + length run - 1)).
  { destruct (Nat.eqb_spec f (length names - 1)); cbn [negb]; [f_equal; lia|].
    rewrite E at 2. rewrite (forward_equal_run pre run post n B Q U) by lia. reflexivity. }
  rewrite Ee. cbn [bind]. destruct (Nat.eqb_spec (length run) 0); [lia|]. do 3 f_equal. lia.
Qed.
