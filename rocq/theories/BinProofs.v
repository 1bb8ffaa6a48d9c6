From Verif Require Import CBase CBaseFacts SearchModel SearchSpec SearchProofs PathModel PathSpec PathProofs
  KeyTableModel KeyTableProofs BinDirModel BinDirSpec BinDirProofs BinModel BinSpec.

(** ** Navigation *)

(** The path string [s] stands for the folder [cur] and has at most [len]
    characters. *)
Definition path_inv (s : cstr) (cur : list (list Z)) (len : nat) : Prop :=
  ascii_str s /\ (s = [SEP] \/ clean s) /\ elements s = cur /\ length s <= len.

Lemma ascii_firstn k s : ascii_str s -> ascii_str (firstn k s).
Proof. intros H. unfold ascii_str in *. rewrite <- (firstn_skipn k s) in H. apply Forall_app in H. tauto. Qed.
Lemma ascii_app a b : ascii_str (a ++ b) <-> ascii_str a /\ ascii_str b.
Proof. apply Forall_app. Qed.
Lemma ascii_view pv : ascii_str (pv_string pv) -> ascii_str (view_text pv).
Proof.
  intros H. unfold view_text. apply ascii_firstn. unfold ascii_str in *. rewrite <- (firstn_skipn (pv_start pv) (pv_string pv)) in H. apply Forall_app in H. tauto.
Qed.

Lemma move_up_len s : is_cstr s -> absolute s -> elements s <> [] ->
  exists k l, path_move_up s = OK (Some k) /\ elements s = removelast (elements s) ++ [l] /\
    absolute (firstn (Nat.max 1 k) s) /\ elements (firstn (Nat.max 1 k) s) = removelast (elements s) /\
    length (firstn (Nat.max 1 k) s) <= Nat.max 1 (length s - length l - 1).
Proof.
  intros Hc Ha He. destruct (absolute_shape s Ha He) as (h0 & sp & e & tr & Hsh).
  exists (length h0), e. split; [eapply move_up_shape; eassumption|].
  destruct (move_up_parent s Hc Ha He) as (k & E & Lk & A & P).
  assert (k = length h0) as -> by (rewrite (move_up_shape s h0 sp e tr Hc Hsh) in E; congruence).
  destruct Hsh as [Es Hh0 Hsp Hspne He' Hene Htr].
  assert (Lsp : 0 < length sp) by (destruct sp; [congruence|simpl; lia]).
  assert (Hel : elements s = elements h0 ++ [e]).
  { rewrite Es, elements_app_mid by assumption. rewrite elements_app_seps by assumption.
    rewrite (elements_nosep e) by assumption. reflexivity. }
  split; [rewrite Hel at 2; rewrite removelast_app_one, Hel; reflexivity|]. split; [assumption|]. split; [assumption|].
  rewrite firstn_length. rewrite Es, !app_length. lia.
Qed.

Lemma path_inv_abs s cur len : path_inv s cur len -> absolute s.
Proof. intros (_ & [->|[_ (c & t & -> & _)]] & _); eexists; reflexivity. Qed.

Lemma is_sep_eq c : is_sep c = true <-> c = SEP.
Proof. unfold is_sep. apply Z.eqb_eq. Qed.

Lemma clean_firstn k s : s = [SEP] \/ clean s -> firstn (Nat.max 1 k) s = [SEP] \/ clean (firstn (Nat.max 1 k) s).
Proof.
  intros [->|[A (c & t & -> & Hn)]]; [left; destruct k as [|[|k]]; reflexivity|].
  destruct k as [|[|k]]; [left; reflexivity|left; reflexivity|]. right. split; [apply ascii_firstn; assumption|].
  cbn [Nat.max firstn]. exists c, (firstn k t). split; [reflexivity|assumption].
Qed.

Lemma nosep_first e : nosep e -> e <> [] -> exists c t, e = c :: t /\ c <> SEP.
Proof.
  intros H N. destruct e as [|c t]; [congruence|]. exists c, t. split; [reflexivity|]. unfold nosep in H. cbn in H.
  apply andb_prop in H as [H _]. unfold not_sep in H. intros ->. discriminate.
Qed.

Lemma join_inv s cur len e : path_inv s cur len -> ascii_str e -> nosep e -> e <> [] ->
  exists c, cget s (length s - 1) = OK c /\ path_inv ((if is_sep c then s else s ++ [SEP]) ++ e) (cur ++ [e]) (len + length e + 1).
Proof.
  intros (A & Cl & E & L) Ae Ne Hne.
  assert (Hs : s <> []) by (destruct Cl as [->|[_ (c & t & -> & _)]]; discriminate).
  destruct (exists_last Hs) as (t & z & ->). exists z.
  assert (Lz : length (t ++ [z]) - 1 = length t) by (rewrite app_length; simpl; lia).
  rewrite Lz, cget_app_at. split; [reflexivity|].
  destruct (nosep_first e Ne Hne) as (c0 & e' & Ee & Hc0).
  destruct (is_sep z) eqn:Z0.
  - apply is_sep_eq in Z0. subst z. split; [apply ascii_app; auto|]. split; [|split].
    + right. split; [apply ascii_app; auto|]. destruct Cl as [Q|[_ (c & u & Q & Hn)]].
      * rewrite Q, Ee. exists c0, e'. split; [reflexivity|assumption].
      * rewrite Q. cbn [app]. exists c, (u ++ e). split; [reflexivity|assumption].
    + rewrite <- E, <- app_assoc. cbn [app]. rewrite elements_app_sep, (elements_nosep e) by assumption.
      rewrite elements_app_sep. cbn. rewrite app_nil_r. reflexivity.
    + rewrite app_length. lia.
  - set (s := t ++ [z]) in *. assert (S1 : (s ++ [SEP]) ++ e = s ++ SEP :: e) by (rewrite <- app_assoc; reflexivity). rewrite S1.
    assert (A' : ascii_str (s ++ SEP :: e)) by (apply ascii_app; split; [assumption|constructor; [unfold SEP; lia|assumption]]).
    split; [assumption|]. split; [|split].
    + right. split; [assumption|]. destruct Cl as [Q|[_ (c & u & Q & Hn)]].
      * exfalso. unfold s in Q. destruct t as [|y t]; [injection Q as ->; discriminate|destruct t; discriminate].
      * rewrite Q. cbn [app]. exists c, (u ++ SEP :: e). split; [reflexivity|assumption].
    + rewrite elements_app_sep, E, (elements_nosep e) by assumption. reflexivity.
    + rewrite app_length. cbn [length]. lia.
Qed.

Lemma elements_in_nosep s e : In e (elements s) -> nosep e /\ e <> [].
Proof.
  intros H. apply filter_In in H as [H N]. split; [|destruct e; [discriminate|discriminate]].
  revert e H N. induction s as [|x s IH]; intros e H N; cbn [split_sep] in H.
  - destruct H as [<-|[]]; reflexivity.
  - destruct (Z.eqb_spec x 47).
    + destruct H as [<-|H]; [reflexivity|apply IH; assumption].
    + destruct (split_sep s) as [|y ys] eqn:Q; [destruct (split_sep_cons s) as (? & ? & Q2); congruence|].
      destruct H as [<-|H].
      * unfold nosep. cbn [forallb]. unfold not_sep at 1. destruct (Z.eqb_spec x SEP); [contradiction|]. cbn.
        destruct y as [|y0 y1]; [reflexivity|]. apply IH; [left; reflexivity|reflexivity].
      * apply IH; [right; assumption|assumption].
Qed.

Lemma view_len pv : view_ok pv -> pv_len pv = length (view_text pv).
Proof. intros [V1 V2]. unfold pv_len, view_text. rewrite firstn_length, skipn_length. lia. Qed.

Lemma cd_element_spec s cur len pv e els : path_inv s cur len -> shows pv (e :: els) -> ascii_str (pv_string pv) ->
  nosep e -> e <> [] ->
  match walk cur len [e] with
  | Some (cur', len') => exists s', cd_element s pv = OK s' /\ path_inv s' cur' len'
  | None => True
  end.
Proof.
  intros I (Hc & V & E) Ap Ne Hne. injection E as Ee _. cbn [walk].
  destruct (view_strcmp_eq pv (bs "..") V Hc ltac:(repeat constructor)) as (c & Ec & Iff). rewrite <- Ee in Iff.
  unfold cd_element. rewrite Ec. cbn [bind]. pose proof I as (A & Cl & El & L).
  destruct (list_eq_dec Z.eq_dec e (bs "..")) as [Q|Q].
  - assert (c = 0%Z) as -> by tauto. cbn [Z.eqb]. destruct (rev cur) as [|l rc] eqn:Rc; [trivial|].
    assert (Nc : elements s <> []) by (rewrite El; intros ->; discriminate).
    destruct (move_up_len s (ascii_is_cstr _ A) (path_inv_abs _ _ _ I) Nc) as (k & l' & Ek & Es & Ab & P & Lk).
    rewrite Ek. cbn [bind]. rewrite El in Es. assert (Rc' := f_equal (@rev _) Es). rewrite rev_app_distr, Rc in Rc'. cbn in Rc'. injection Rc' as <- _.
    replace (if k =? 0 then 1 else k) with (Nat.max 1 k) by (destruct k; reflexivity).
    eexists. split; [reflexivity|]. split; [apply ascii_firstn; assumption|]. split; [apply clean_firstn; assumption|].
    rewrite El in P. split; [exact P|]. lia.
  - destruct (Z.eqb_spec c 0); [tauto|]. rewrite (stralloc_spec pv V Hc), <- Ee. cbn [bind].
    destruct (len + length e + 1 <? 1024) eqn:B; [|trivial]. apply Nat.ltb_lt in B.
    rewrite (view_len pv V), <- Ee.
    assert (B' : (length s + length e + 1 <? 1024) = true) by (apply Nat.ltb_lt; lia). rewrite B'.
    assert (Ae : ascii_str e) by (rewrite Ee; apply ascii_view; assumption).
    destruct (join_inv s cur len e I Ae Ne Hne) as (z & Ez & J). rewrite Ez. cbn [bind]. eexists. split; [reflexivity|exact J].
Qed.

Lemma walk_cons cur len e r : walk cur len (e :: r) = match walk cur len [e] with Some (c, l) => walk c l r | None => None end.
Proof.
  cbn [walk]. destruct (list_eq_dec Z.eq_dec e (bs "..")); [destruct (rev cur); reflexivity|].
  destruct (len + length e + 1 <? 1024); reflexivity.
Qed.

Lemma cd_relative_spec els : forall fuel s cur len pv cur' len', path_inv s cur len -> shows pv els -> ascii_str (pv_string pv) ->
  (forall e, In e els -> nosep e /\ e <> []) -> length els <= fuel -> walk cur len els = Some (cur', len') ->
  exists s', cd_relative fuel s pv = OK s' /\ path_inv s' cur' len'.
Proof.
  induction els as [|e els IH]; intros fuel s cur len pv cur' len' I S A Hn L W; [destruct S as (_ & _ & E); discriminate|].
  destruct fuel as [|fuel]; [simpl in L; lia|]. cbn [cd_relative].
  rewrite walk_cons in W. destruct (Hn e (or_introl eq_refl)) as [N1 N2].
  pose proof (cd_element_spec s cur len pv e els I S A N1 N2) as Ce.
  destruct (walk cur len [e]) as [[c1 l1]|]; [|discriminate]. destruct Ce as (s1 & Es & I1). rewrite Es. cbn [bind].
  pose proof (shows_advance pv e els S) as Adv. destruct els as [|e2 els].
  - rewrite Adv. cbn [bind]. cbn in W. injection W as <- <-. exists s1. split; [reflexivity|exact I1].
  - destruct Adv as (pv' & Ea & S' & Es' & _). rewrite Ea. cbn [bind].
    apply (IH fuel s1 c1 l1 pv'); auto; [rewrite Es'; assumption|intros; apply Hn; right; assumption|simpl in *; lia].
Qed.

Lemma walk_cd els : forall cur len cur' len', walk cur len els = Some (cur', len') -> cur' = fold_left cd_one els cur.
Proof.
  induction els as [|e els IH]; intros cur len cur' len' W; [cbn in W; injection W as <- _; reflexivity|].
  cbn [walk] in W. cbn [fold_left]. unfold cd_one at 2. destruct (list_eq_dec Z.eq_dec e (bs "..")).
  - destruct (rev cur); [discriminate|]. eapply IH; eassumption.
  - destruct (len + length e + 1 <? 1024); [|discriminate]. eapply IH; eassumption.
Qed.

(** the first view of a relative path *)
Lemma new_rel s : is_cstr s -> s <> [] -> is_abs s = false -> exists pv, path_view_new s = OK pv /\ pv_string pv = s /\ shows pv (elements s).
Proof.
  intros Hc Hne Ha. destruct s as [|c t]; [congruence|]. cbn [is_abs] in Ha.
  assert (Hn : c <> SEP) by (apply Z.eqb_neq; exact Ha).
  assert (Hcc : (0 < c < 256)%Z) by (inversion Hc; assumption).
  unfold path_view_new. change (cget (c :: t) 0) with (OK c). cbn [bind]. unfold is_sep. change (c =? SEP)%Z with (c =? 47)%Z. rewrite Ha. cbn [negb].
  rewrite scan_span; [|reflexivity|simpl; lia|simpl; lia]. cbn [bind]. eexists. split; [reflexivity|]. split; [reflexivity|].
  set (e := fst (span in_elem t)).
  assert (Et : t = e ++ snd (span in_elem t)) by (symmetry; apply span_app).
  assert (Le : length e <= length t) by (rewrite Et, app_length; lia).
  cbn [skipn]. fold e. split; [exact Hc|]. split.
  { unfold view_ok. cbn [pv_start pv_end pv_string length]. lia. }
  unfold view_text. cbn [pv_start pv_end pv_string]. pose proof (elements_span (c :: t) Hc Hn) as [Es _].
  assert (Sp : fst (span in_elem (c :: t)) = c :: e).
  { cbn [span]. rewrite (in_elem_true c) by lia. unfold e. destruct (span in_elem t); reflexivity. }
  rewrite Sp in Es. cbn [length] in Es. rewrite Es. apply (f_equal2 (@cons _)).
  - replace (1 + length e - 1 - 0 + 1) with (length (c :: e)) by (simpl; lia). cbn [skipn].
    rewrite Et at 1. change (c :: e ++ snd (span in_elem t)) with ((c :: e) ++ snd (span in_elem t)). symmetry. apply firstn_app_exact.
  - f_equal. f_equal. lia.
Qed.

(** ** The directory *)
Definition covers (Q V : list (list (list Z))) (ops : list op) : Prop :=
  ((forall q i, In (q, i) (records [] ops) -> In q Q) /\ (forall p, In p (folder_paths ops) -> In p V)) /\
  (forall p, In (OpFolder p) ops -> clean p) /\ (forall n i, In (OpFile n i) ops -> ascii_str n) /\
  match ops with OpFile _ _ :: _ => False | _ => True end.
Definition nonroot (l : list (list (list Z))) : list (list (list Z)) := filter (fun p => match p with [] => false | _ => true end) l.
Lemma nonroot_app a b : nonroot (a ++ b) = nonroot a ++ nonroot b.
Proof. apply filter_app. Qed.
Definition separate (Q V : list (list (list Z))) : Prop := forall q p, In q Q -> In p V -> ~ prefix q p.

Lemma separate_noclash Q V ops : covers Q V ops -> separate Q V -> noclash ops.
Proof. intros [[C1 C2] _] S q i I (p & Ip & P). exact (S q p (C1 q i I) (C2 p Ip) P). Qed.
Lemma covers_folder Q V ops s : covers Q V ops -> clean s -> In (elements s) V -> covers Q V (ops ++ [OpFolder s]).
Proof.
  intros ((C1 & C2) & C3 & C4 & C5) Cs Iv. split; [split|split; [|split]].
  - intros q i I. rewrite records_app in I. cbn in I. rewrite app_nil_r in I. apply (C1 q i I).
  - intros p I. rewrite folder_paths_app in I. apply in_app_or in I as [I|[<-|[]]]; [apply (C2 p I)|exact Iv].
  - intros p I. apply in_app_or in I as [I|[I|[]]]; [apply C3; exact I|injection I as <-; exact Cs].
  - intros n i I. apply in_app_or in I as [I|[I|[]]]; [apply (C4 n i I)|discriminate].
  - destruct ops as [|[|] ops]; exact C5.
Qed.
Lemma covers_file Q V ops name i cur : covers Q V ops -> cur <> [] -> cur_of [] ops = cur -> ascii_str name -> In (cur ++ [name]) Q -> covers Q V (ops ++ [OpFile name i]).
Proof.
  intros ((C1 & C2) & C3 & C4 & C5) Ne Ec An Iq. split; [split|split; [|split]].
  - intros q j I. rewrite records_app, Ec in I. apply in_app_or in I as [I|[I|[]]]; [apply (C1 q j I)|]. injection I as <- _. exact Iq.
  - intros p I. rewrite folder_paths_app in I. cbn in I. rewrite app_nil_r in I. apply (C2 p I).
  - intros p I. apply in_app_or in I as [I|[I|[]]]; [apply C3; exact I|discriminate].
  - intros n j I. apply in_app_or in I as [I|[I|[]]]; [apply (C4 n j I)|injection I as <- _; exact An].
  - destruct ops as [|[|] ops]; [exfalso; apply Ne; rewrite <- Ec; reflexivity|exact C5|exact C5].
Qed.
Lemma covers_nil Q V : covers Q V [].
Proof. split; [split|split; [|split]]; cbn; intros; try contradiction. exact I. Qed.

Record sim (Q V : list (list (list Z))) (ops : list op) (st : state) (cur : list (list Z)) (len : nat) : Prop := {
  sim_den : denotes ops (s_dir st);
  sim_path : path_inv (s_path st) cur len;
  sim_folder : cur <> [] -> exists a, s_folder st = Some a /\ cur_ok ops (s_dir st) (Some a) /\ cur_of [] ops = cur;
  sim_covers : covers Q V ops
}.

Lemma cd_one_no els cur : ~ In (bs "..") els -> fold_left cd_one els cur = cur ++ els.
Proof.
  revert cur; induction els as [|e els IH]; intros cur H; cbn [fold_left]; [rewrite app_nil_r; reflexivity|].
  rewrite IH by (intros I; apply H; right; exact I). unfold cd_one. destruct (list_eq_dec Z.eq_dec e (bs "..")) as [Q|_]; [exfalso; apply H; left; exact Q|].
  rewrite <- app_assoc. reflexivity.
Qed.

Lemma sim_insert Q V ops st cur len s els len' : sim Q V ops st cur len -> separate Q V -> path_inv s els len' -> els <> [] -> In els V ->
  exists dir a, insert_folder_path (s_dir st) s = OK (dir, Some a) /\
    sim Q V (ops ++ [OpFolder s]) {| s_dir := dir; s_path := s; s_folder := Some a |} els len' /\ records [] (ops ++ [OpFolder s]) = records [] ops /\
    folder_paths (ops ++ [OpFolder s]) = folder_paths ops ++ nonroot [els].
Proof.
  intros [D P F C] Sp (A & Cl & El & L) Ne Iv.
  assert (Cs : clean s) by (destruct Cl as [->|Cl]; [exfalso; apply Ne; rewrite <- El; reflexivity|exact Cl]).
  assert (C' : covers Q V (ops ++ [OpFolder s])) by (apply covers_folder; [exact C|exact Cs|rewrite El; exact Iv]).
  destruct (step_folder ops (s_dir st) s D Cs (separate_noclash Q V _ C' Sp)) as (dir & a & E & D' & K).
  exists dir, a. split; [exact E|]. split; [|split; [rewrite records_app; cbn; apply app_nil_r|rewrite folder_paths_app; cbn [folder_paths nonroot filter]; rewrite El; destruct els; [congruence|reflexivity]]].
  split; cbn [s_dir s_path s_folder]; auto; [repeat split; auto|].
  intros _. exists a. split; [reflexivity|]. split; [exact K|]. rewrite cur_of_app. cbn. exact El.
Qed.

Lemma cd_sim Q V ops st cur len path r : sim Q V ops st cur len -> separate Q V -> In (cd_to cur path) V -> ascii_str path ->
  supported cur len (Cd path :: r) ->
  exists st' ops' len', cd st path = OK st' /\ sim Q V ops' st' (cd_to cur path) len' /\ supported (cd_to cur path) len' r /\
    records [] ops' = records [] ops /\ folder_paths ops' = folder_paths ops ++ nonroot [cd_to cur path].
Proof.
  intros S Sp Iv Ap Su. cbn [supported] in Su. unfold cd.
  assert (Ia : path_is_abs path = OK (is_abs path)) by (destruct path; reflexivity). rewrite Ia. cbn [bind].
  unfold cd_to in *. destruct (is_abs path) eqn:Ab.
  - destruct Su as (Cl & Nd & Su). rewrite cd_one_no in * by assumption. cbn [app] in *.
    destruct Cl as [->|Cl].
    + (* "/" *)
      exists {| s_dir := s_dir st; s_path := [SEP]; s_folder := s_folder st |}, ops, 1. split; [reflexivity|].
      split; [|split; [exact Su|split; [reflexivity|cbn; symmetry; apply app_nil_r]]]. destruct S as [D P F C]. split; cbn [s_dir s_path s_folder]; auto.
      * split; [repeat constructor; unfold SEP; lia|]. split; [left; reflexivity|]. split; [reflexivity|simpl; lia].
      * intros N. exfalso. apply N. reflexivity.
    + assert (P : path_inv path (elements path) (length path)) by (repeat split; auto).
      destruct (sim_insert Q V ops st cur len path (elements path) (length path) S Sp P (clean_elements _ Cl) Iv) as (dir & a & E & S' & R).
      unfold insert_folder_path in E. destruct (clean_start path Cl) as (pv & pv' & E1 & E2 & _).
      rewrite E1 in E |- *. cbn [bind] in E |- *. rewrite E2 in E |- *. cbn [bind] in E |- *. rewrite E. cbn [bind].
      eexists. exists (ops ++ [OpFolder path]), (length path). split; [reflexivity|]. auto.
  - destruct Su as (Ne & Su). destruct (walk cur len (elements path)) as [[cur' len']|] eqn:W; [|contradiction]. destruct Su as [Nc Su].
    destruct (new_rel path (ascii_is_cstr _ Ap) Ne Ab) as (pv & E1 & Es & Sh). rewrite E1. cbn [bind].
    destruct (cd_relative_spec (elements path) (Datatypes.S (length path)) (s_path st) cur len pv cur' len') as (s' & E2 & P'); auto.
    { apply (sim_path _ _ _ _ _ _ S). }
    { rewrite Es; assumption. }
    { intros e I. apply (elements_in_nosep path). exact I. }
    { apply elements_length_le. }
    rewrite E2. cbn [bind]. pose proof (walk_cd _ _ _ _ _ W) as Wc. rewrite <- Wc in *.
    destruct (sim_insert Q V ops st cur len s' cur' len' S Sp P' Nc Iv) as (dir & a & E & S' & R).
    unfold insert_folder_path in E. destruct (path_view_new s') as [pv2| |]; try discriminate. cbn [bind] in E |- *.
    destruct (path_view_advance pv2) as [[pv3 m]| |]; try discriminate. cbn [bind] in E |- *. rewrite E. cbn [bind].
    eexists. exists (ops ++ [OpFolder s']), len'. split; [reflexivity|]. auto.
Qed.

(** ** Reading fields *)
Lemma le_bytes_length n v : length (le_bytes n v) = n.
Proof. revert v; induction n as [|n IH]; intros v; cbn; [reflexivity|rewrite IH; reflexivity]. Qed.
Lemma le_value_bytes n v : (0 <= v < 256 ^ Z.of_nat n)%Z -> le_value (le_bytes n v) = v.
Proof.
  revert v; induction n as [|n IH]; intros v H; cbn [le_bytes le_value].
  - change (256 ^ Z.of_nat 0)%Z with 1%Z in H. lia.
  - rewrite Nat2Z.inj_succ, Z.pow_succ_r in H by lia. rewrite IH.
    + pose proof (Z.div_mod v 256 ltac:(lia)). lia.
    + split; [apply Z.div_pos; lia|apply Z.div_lt_upper_bound; lia].
Qed.

Lemma fread_mid a b c pos size count : pos = Z.of_nat (length a) -> (size * count = Z.of_nat (length b))%Z -> (0 < size)%Z -> (0 <= count)%Z ->
  fread (a ++ b ++ c) pos size count = Some (b, (pos + size * count)%Z).
Proof.
  intros -> Hn Hs Hc. unfold fread. destruct (Z.eqb_spec count 0) as [->|Hz].
  - rewrite Z.mul_0_r in *. destruct b; [|simpl in Hn; lia]. rewrite Z.add_0_r. reflexivity.
  - rewrite (proj2 (Z.ltb_lt 0 size)) by lia. rewrite !app_length, !Nat2Z.inj_add. rewrite Hn.
    rewrite (proj2 (Z.leb_le _ _)) by lia. cbn [andb]. rewrite !Nat2Z.id, skipn_app_exact, firstn_app_exact. reflexivity.
Qed.

Lemma s64_small z : (0 <= z < 2 ^ 63)%Z -> s64 z = z.
Proof. intros H. unfold s64. rewrite Z.mod_small by lia. rewrite (proj2 (Z.ltb_lt _ _)) by lia. reflexivity. Qed.
Lemma fseek_cur_small pos off : (0 <= pos < 2 ^ 62)%Z -> (0 <= off < 2 ^ 62)%Z -> fseek_cur pos off = Some (pos + off)%Z.
Proof.
  intros H1 H2. unfold fseek_cur, fseek_to. rewrite s64_small by lia.
  rewrite (proj2 (Z.leb_le _ _)), (proj2 (Z.ltb_lt _ _)) by lia. reflexivity.
Qed.
Lemma u64_small z : (0 <= z < 2 ^ 64)%Z -> u64 z = z.
Proof. intros. unfold u64. apply Z.mod_small. assumption. Qed.

Definition hd (f : format) : header :=
  {| h_length := Z.of_nat (f_length f); h_offset := f_offset f; h_command := Z.of_nat (f_command f); h_typeid := Z.of_nat (f_typeid f);
     h_endianess := 1; h_float := 0 |}.

Definition cd_next (cur : list (list Z)) (r : record) : list (list Z) := match r with Cd p => cd_to cur p | _ => cur end.
Lemma stored_cons cur r rs : stored cur (r :: rs) = stored cur [r] ++ stored (cd_next cur r) rs.
Proof. destruct r; reflexivity. Qed.
Lemma visited_cons cur r rs : visited cur (r :: rs) = visited cur [r] ++ visited (cd_next cur r) rs.
Proof. destruct r; reflexivity. Qed.

(** a directory entry and the record it stands for *)
Definition rel (idx : Z) (data : list Z) (e : list (list Z) * info) (s : list (list Z) * (Z * list Z)) : Prop :=
  fst e = fst s /\ let '(vt, sz, fi, p) := snd e in let '(t, pl) := snd s in
  vt = t /\ sz = Z.of_nat (length pl) /\ fi = u8 idx /\ exists a c, data = a ++ pl ++ c /\ p = Z.of_nat (length a).

Lemma encode_record_length f r : length (encode_record f r) = record_size f r.
Proof. unfold encode_record, record_size. rewrite !app_length, !le_bytes_length. lia. Qed.

Lemma pow256_64 n : n <= 8 -> (256 ^ Z.of_nat n <= 2 ^ 64)%Z.
Proof. intros H. change (2 ^ 64)%Z with (256 ^ 8)%Z. apply Z.pow_le_mono_r; lia. Qed.

(** the fields in front of the body *)
Lemma step_head f idx r pre post st pos : format_ok f -> record_ok f r -> pos = Z.of_nat (length pre) ->
  (Z.of_nat (length (pre ++ encode_record f r ++ post)) < 2 ^ 62)%Z ->
  let data := pre ++ encode_record f r ++ post in
  let p2 := (pos + Z.of_nat (f_length f) + Z.of_nat (f_command f))%Z in
  let dl := Z.of_nat (length (body f r)) in
  record_step (hd f) idx data (pos, st) =
    match r with
    | Cd path => do st <- cd st path; OK (inl ((p2 + dl)%Z, st))
    | Data _ _ _ => data_record (hd f) idx data dl p2 st
    | Other _ _ => OK (inl ((p2 + dl)%Z, st))
    end.
Proof.
  intros (F1 & F2 & F3) (R1 & R2 & R3 & R4) Hp Hl data p2 dl.
  fold data in Hl. unfold record_step. assert (Lr := encode_record_length f r). unfold record_size in Lr.
  assert (Ld : Z.of_nat (length data) = (pos + Z.of_nat (record_size f r) + Z.of_nat (length post))%Z).
  { unfold data. rewrite !app_length, encode_record_length. lia. }
  assert (Lr2 : record_size f r = f_length f + f_command f + length (body f r)) by reflexivity.
  destruct (Z.eqb_spec pos (Z.of_nat (length data))); [lia|].
  assert (D1 : data = pre ++ le_bytes (f_length f) (Z.of_nat (record_size f r)) ++ (le_bytes (f_command f) (command r) ++ body f r ++ post)).
  { unfold data, encode_record. rewrite <- !app_assoc. reflexivity. }
  rewrite D1 at 1. rewrite (fread_mid pre _ _ pos (h_length (hd f)) 1 Hp); [|cbn; rewrite le_bytes_length; lia|cbn; lia|lia].
  assert (D2 : data = (pre ++ le_bytes (f_length f) (Z.of_nat (record_size f r))) ++ le_bytes (f_command f) (command r) ++ (body f r ++ post)).
  { rewrite D1, <- !app_assoc. reflexivity. }
  cbn [h_length h_command hd]. rewrite Z.mul_1_r.
  rewrite D2 at 1. rewrite (fread_mid _ _ _ _ (Z.of_nat (f_command f)) 1); [|rewrite app_length, le_bytes_length; lia|rewrite le_bytes_length; lia|lia|lia].
  rewrite Z.mul_1_r. rewrite !le_value_bytes by lia.
  replace (u64 (Z.of_nat (record_size f r) - Z.of_nat (f_length f) - Z.of_nat (f_command f))) with dl by (rewrite u64_small by (unfold dl; lia); unfold dl; lia).
  replace (pos + Z.of_nat (f_length f) + Z.of_nat (f_command f))%Z with p2 by reflexivity.
  destruct r as [path|type name payload|c payload]; cbn [command].
  - cbn [Z.eqb Pos.eqb]. destruct R4 as [R4 R5]. cbn [body] in *.
    assert ((dl <? 1024)%Z = true) as -> by (apply Z.ltb_lt; unfold dl; lia). cbn [negb].
    assert (D3 : data = (pre ++ le_bytes (f_length f) (Z.of_nat (record_size f (Cd path))) ++ le_bytes (f_command f) 2) ++ path ++ post).
    { rewrite D2. cbn [command]. rewrite <- !app_assoc. reflexivity. }
    rewrite D3 at 1. rewrite (fread_mid _ path post p2 1 dl); [|unfold p2; rewrite !app_length, !le_bytes_length; lia|unfold dl; lia|lia|unfold dl; lia].
    change NUL with 0%Z. rewrite (cstring_at_app path []) by (apply is_cstr_nonzero, ascii_is_cstr; exact R5). cbn [bind]. rewrite Z.mul_1_l. reflexivity.
  - reflexivity.
  - destruct R4 as [R4 R5]. destruct (Z.eqb_spec c 2); [contradiction|]. destruct (Z.eqb_spec c 3); [contradiction|].
    rewrite fseek_cur_small; [reflexivity|unfold p2; lia|unfold dl; lia].
Qed.

Lemma data_step f idx type name payload a post st pos folder : format_ok f -> (0 <= type < 256)%Z -> length name < 256 -> ascii_str name ->
  s_folder st = Some folder -> pos = Z.of_nat (length a) ->
  let bd := body f (Data type name payload) in let data := a ++ bd ++ post in
  (Z.of_nat (length data) < 2 ^ 62)%Z ->
  let p3 := (pos + Z.of_nat (f_typeid f) + 1 + Z.of_nat (length name))%Z in
  data_record (hd f) idx data (Z.of_nat (length bd)) pos st =
    (do dir <- insert_variable (s_dir st) (Some folder) name (type, Z.of_nat (length payload), u8 idx, p3);
     OK (inl ((pos + Z.of_nat (length bd))%Z, {| s_dir := dir; s_path := s_path st; s_folder := s_folder st |}))) /\
  exists a' c', data = a' ++ payload ++ c' /\ p3 = Z.of_nat (length a').
Proof.
  intros (F1 & F2 & F3) Ht Hn Ha Hf Hp bd data Hl p3.
  assert (Lb : length bd = f_typeid f + 1 + length name + length payload).
  { unfold bd. cbn [body]. rewrite app_length, le_bytes_length. cbn [length]. rewrite app_length. lia. }
  assert (Ld : Z.of_nat (length data) = (pos + Z.of_nat (length bd) + Z.of_nat (length post))%Z) by (unfold data; rewrite !app_length; lia).
  assert (D1 : data = a ++ le_bytes (f_typeid f) type ++ ([Z.of_nat (length name)] ++ name ++ payload ++ post)).
  { unfold data, bd. cbn [body]. rewrite <- !app_assoc. cbn [app]. rewrite <- !app_assoc. reflexivity. }
  split.
  - unfold data_record. rewrite Hf. cbn [h_typeid hd].
    rewrite D1 at 1. rewrite (fread_mid a _ _ pos (Z.of_nat (f_typeid f)) 1 Hp); [|rewrite le_bytes_length; lia|lia|lia].
    rewrite Z.mul_1_r.
    assert (D2 : data = (a ++ le_bytes (f_typeid f) type) ++ [Z.of_nat (length name)] ++ (name ++ payload ++ post)) by (rewrite D1, <- !app_assoc; reflexivity).
    rewrite D2 at 1. rewrite (fread_mid _ [Z.of_nat (length name)] _ _ 1 1); [|rewrite app_length, le_bytes_length; lia|simpl; lia|lia|lia].
    cbn [le_value]. replace (Z.of_nat (length name) + 256 * 0)%Z with (Z.of_nat (length name)) by lia.
    assert (D3 : data = ((a ++ le_bytes (f_typeid f) type) ++ [Z.of_nat (length name)]) ++ name ++ (payload ++ post)) by (rewrite D2, <- !app_assoc; reflexivity).
    rewrite D3 at 1. rewrite (fread_mid _ name _ _ 1 (Z.of_nat (length name))); [|rewrite !app_length, le_bytes_length; simpl; lia|lia|lia|lia].
    change NUL with 0%Z. rewrite (cstring_at_app name []) by (apply is_cstr_nonzero, ascii_is_cstr; assumption). cbn [bind].
    rewrite !le_value_bytes by (split; [lia|eapply Z.lt_le_trans; [apply Ht|]; change 256%Z with (256 ^ 1)%Z; apply Z.pow_le_mono_r; lia]).
    replace (u64 (Z.of_nat (length bd) - Z.of_nat (f_typeid f) - 1 - Z.of_nat (length name))) with (Z.of_nat (length payload)) by (rewrite u64_small by lia; lia).
    rewrite fseek_cur_small by lia.
    replace (u8 type) with type by (unfold u8; rewrite Z.mod_small by lia; reflexivity).
    replace (pos + Z.of_nat (f_typeid f) + 1 * 1 + 1 * Z.of_nat (length name))%Z with p3 by (unfold p3; lia).
    unfold insert_variable. destruct (at_folder _ _ _) as [dir| |]; [|reflexivity|reflexivity]. cbn [bind].
    f_equal. f_equal. f_equal. unfold p3. lia.
  - exists (((a ++ le_bytes (f_typeid f) type) ++ [Z.of_nat (length name)]) ++ name), post. split; [rewrite D1, <- !app_assoc; reflexivity|].
    unfold p3. rewrite !app_length, le_bytes_length. cbn [length]. lia.
Qed.

Lemma step_sim Q V f idx r rs pre post pos ops st cur len : format_ok f -> record_ok f r -> pos = Z.of_nat (length pre) ->
  (Z.of_nat (length (pre ++ encode_record f r ++ post)) < 2 ^ 62)%Z ->
  sim Q V ops st cur len -> separate Q V -> supported cur len (r :: rs) ->
  (forall p, In p (visited cur [r]) -> In p V) -> (forall q v, In (q, v) (stored cur [r]) -> In q Q) ->
  let data := pre ++ encode_record f r ++ post in
  exists st' ops' len' news, record_step (hd f) idx data (pos, st) = OK (inl ((pos + Z.of_nat (record_size f r))%Z, st')) /\
    sim Q V ops' st' (cd_next cur r) len' /\ supported (cd_next cur r) len' rs /\
    records [] ops' = records [] ops ++ news /\ folder_paths ops' = folder_paths ops ++ nonroot (visited cur [r]) /\ Forall2 (rel idx data) news (stored cur [r]).
Proof.
  intros Fo Ro Hp Hl S Sp Su Hv Hq data. unfold data. rewrite (step_head f idx r pre post st pos Fo Ro Hp Hl).
  assert (Lr2 : record_size f r = f_length f + f_command f + length (body f r)) by reflexivity.
  destruct r as [path|type name payload|c payload]; cbn [cd_next].
  - destruct Ro as (_ & _ & _ & Rp & Ra).
    destruct (cd_sim Q V ops st cur len path rs S Sp) as (st' & ops' & len' & E & S' & Su' & R & Rf); auto.
    { apply Hv. left. reflexivity. }
    exists st', ops', len', []. rewrite E. cbn [bind]. split; [f_equal; f_equal; f_equal; lia|].
    split; [exact S'|]. split; [exact Su'|]. split; [rewrite app_nil_r; exact R|]. split; [exact Rf|]. constructor.
  - destruct Ro as (_ & _ & _ & Rt & Rn & Ra). cbn [supported] in Su. destruct Su as [Nc Su].
    destruct S as [D P F C]. destruct (F Nc) as (a & Fa & K & Ec).
    set (a0 := pre ++ le_bytes (f_length f) (Z.of_nat (record_size f (Data type name payload))) ++ le_bytes (f_command f) 3).
    assert (Ea : pre ++ encode_record f (Data type name payload) ++ post = a0 ++ body f (Data type name payload) ++ post).
    { unfold a0, encode_record. cbn [command]. rewrite <- !app_assoc. reflexivity. }
    rewrite Ea in *.
    set (p2 := (pos + Z.of_nat (f_length f) + Z.of_nat (f_command f))%Z).
    assert (Hp2 : p2 = Z.of_nat (length a0)) by (unfold p2, a0; rewrite !app_length, !le_bytes_length; lia).
    destruct (data_step f idx type name payload a0 post st p2 a Fo Rt Rn Ra Fa Hp2 Hl) as (E & a' & c' & Ed & Hp3).
    rewrite E. set (i := (type, Z.of_nat (length payload), u8 idx, (p2 + Z.of_nat (f_typeid f) + 1 + Z.of_nat (length name))%Z)) in *.
    assert (Rec : records [] (ops ++ [OpFile name i]) = records [] ops ++ [(cur ++ [name], i)]) by (rewrite records_app, Ec; reflexivity).
    assert (C' : covers Q V (ops ++ [OpFile name i])) by (apply (covers_file Q V ops name i cur); auto; eapply Hq; left; reflexivity).
    destruct (step_file ops (s_dir st) a name i D K Ra (separate_noclash Q V _ C' Sp)) as (dir' & E' & D' & K').
    rewrite E'. cbn [bind]. eexists. exists (ops ++ [OpFile name i]), len, [(cur ++ [name], i)].
    split; [f_equal; f_equal; f_equal; unfold p2; lia|]. split.
    { split; cbn [s_dir s_path s_folder]; auto. intros _. exists a. split; [exact Fa|]. split; [exact K'|]. rewrite cur_of_app. cbn. exact Ec. }
    split; [exact Su|]. split; [exact Rec|]. split; [rewrite folder_paths_app; reflexivity|]. cbn [stored]. constructor; [|constructor].
    split; [reflexivity|]. cbn [snd i]. split; [reflexivity|]. split; [reflexivity|]. split; [reflexivity|]. exists a', c'. auto.
  - exists st, ops, len, []. split; [f_equal; f_equal; f_equal; lia|]. split; [exact S|]. split; [exact Su|]. split; [rewrite app_nil_r; reflexivity|]. split; [cbn; rewrite app_nil_r; reflexivity|constructor].
Qed.

(** ** A whole file *)
Lemma loop_sim Q V f idx : forall rs rest tail pre pos ops st cur len fuel, format_ok f -> Forall (record_ok f) rs -> pos = Z.of_nat (length pre) ->
  let data := pre ++ concat (map (encode_record f) rs) ++ tail in
  (Z.of_nat (length data) < 2 ^ 62)%Z ->
  sim Q V ops st cur len -> separate Q V -> supported cur len (rs ++ rest) ->
  (forall p, In p (visited cur rs) -> In p V) -> (forall q v, In (q, v) (stored cur rs) -> In q Q) ->
  exists st' ops' cur' len' news,
    loop (length rs + fuel) (record_step (hd f) idx data) (pos, st) =
      loop fuel (record_step (hd f) idx data) (Z.of_nat (length (pre ++ concat (map (encode_record f) rs))), st') /\
    sim Q V ops' st' cur' len' /\ supported cur' len' rest /\ cur' = fold_left cd_next rs cur /\
    records [] ops' = records [] ops ++ news /\ folder_paths ops' = folder_paths ops ++ nonroot (visited cur rs) /\ Forall2 (rel idx data) news (stored cur rs).
Proof.
  induction rs as [|r rs IH]; intros rest tail pre pos ops st cur len fuel Fo Ro Hp data Hl S Sp Su Hv Hq.
  - exists st, ops, cur, len, []. cbn [length map concat Nat.add fold_left stored]. rewrite app_nil_r. subst pos.
    split; [reflexivity|]. split; [exact S|]. split; [exact Su|]. split; [reflexivity|]. split; [rewrite app_nil_r; reflexivity|]. split; [cbn; rewrite app_nil_r; reflexivity|constructor].
  - inversion Ro as [|? ? Ro1 Ro2]; subst.
    assert (Ed : data = pre ++ encode_record f r ++ (concat (map (encode_record f) rs) ++ tail)) by (unfold data; cbn [map concat]; rewrite <- app_assoc; reflexivity).
    assert (Hl' := Hl). rewrite Ed in Hl'.
    destruct (step_sim Q V f idx r (rs ++ rest) pre (concat (map (encode_record f) rs) ++ tail) _ ops st cur len Fo Ro1 eq_refl Hl' S Sp Su) as (st1 & ops1 & len1 & n1 & E1 & S1 & Su1 & R1 & V1 & F1).
    { intros p I. apply Hv. rewrite visited_cons. apply in_or_app. auto. }
    { intros q v I. apply (Hq q v). rewrite stored_cons. apply in_or_app. auto. }
    rewrite <- Ed in E1, F1.
    assert (Ed2 : data = (pre ++ encode_record f r) ++ concat (map (encode_record f) rs) ++ tail) by (rewrite Ed, <- app_assoc; reflexivity).
    destruct (IH rest tail (pre ++ encode_record f r) (Z.of_nat (length (pre ++ encode_record f r))) ops1 st1 (cd_next cur r) len1 fuel Fo Ro2 eq_refl) as (st2 & ops2 & cur2 & len2 & n2 & E2 & S2 & Su2 & C2 & R2 & V2 & F2); auto.
    { rewrite <- Ed2. exact Hl. }
    { intros p I. apply Hv. rewrite visited_cons. apply in_or_app. auto. }
    { intros q v I. apply (Hq q v). rewrite stored_cons. apply in_or_app. auto. }
    rewrite <- Ed2 in E2, F2.
    exists st2, ops2, cur2, len2, (n1 ++ n2). cbn [length Nat.add]. rewrite loop_S, E1.
    split; [|split; [exact S2|split; [exact Su2|split; [exact C2|split; [|split]]]]].
    + rewrite app_length, encode_record_length in E2. rewrite Nat2Z.inj_add in E2. rewrite E2.
      f_equal. f_equal. f_equal. cbn [map concat]. rewrite !app_length. lia.
    + rewrite R2, R1, app_assoc. reflexivity.
    + rewrite (visited_cons cur r rs), V2, V1, nonroot_app, app_assoc. reflexivity.
    + rewrite stored_cons. apply Forall2_app; assumption.
Qed.

Lemma concat_length_ge f rs : format_ok f -> length rs <= length (concat (map (encode_record f) rs)).
Proof.
  intros (F1 & F2 & F3). induction rs as [|r rs IH]; [simpl; lia|]. cbn [map concat length]. rewrite app_length, encode_record_length. unfold record_size. lia.
Qed.

Lemma sim_start Q V ops dir : denotes ops dir -> covers Q V ops -> sim Q V ops {| s_dir := dir; s_path := [SEP]; s_folder := None |} [] 1.
Proof.
  intros D C. split; cbn [s_dir s_path s_folder]; auto.
  - split; [repeat constructor; unfold SEP; lia|]. split; [left; reflexivity|]. split; [reflexivity|simpl; lia].
  - intros N. exfalso. apply N. reflexivity.
Qed.

(** the header of an encoded file is accepted *)
Lemma parse_header fuel dir idx f tail : format_ok f ->
  parse_file fuel dir idx (Content (encode_header f ++ tail)) =
    (do '(st, err) <- loop fuel (record_step (hd f) idx (encode_header f ++ tail)) (8%Z, {| s_dir := dir; s_path := [SEP]; s_folder := None |});
     OK (s_dir st, err)).
Proof.
  intros (F1 & F2 & F3). unfold parse_file.
  change (fread (encode_header f ++ tail) 0 8 1) with (fread ([] ++ encode_header f ++ tail) 0 8 1).
  rewrite (fread_mid [] (encode_header f) tail 0 8 1); [|reflexivity|reflexivity|lia|lia].
  cbn [Z.add Z.mul Pos.mul]. change (header_of (encode_header f)) with (hd f). cbn [hd h_endianess h_length h_command h_typeid h_float].
  cbn [Z.eqb Pos.eqb negb].
  rewrite !(proj2 (Z.ltb_ge 8 _)) by lia. reflexivity.
Qed.

Lemma parse_file_sim Q V f rs idx ops dir fuel : format_ok f -> Forall (record_ok f) rs -> supported [] 1 rs ->
  (Z.of_nat (length (encode f rs)) < 2 ^ 62)%Z -> length (encode f rs) < fuel ->
  denotes ops dir -> covers Q V ops -> separate Q V ->
  (forall p, In p (visited [] rs) -> In p V) -> (forall q v, In (q, v) (stored [] rs) -> In q Q) ->
  exists dir' ops' news, parse_file fuel dir idx (Content (encode f rs)) = OK (dir', None) /\ denotes ops' dir' /\ covers Q V ops' /\
    records [] ops' = records [] ops ++ news /\ folder_paths ops' = folder_paths ops ++ nonroot (visited [] rs) /\ Forall2 (rel idx (encode f rs)) news (stored [] rs).
Proof.
  intros Fo Ro Su Hl Hf D C Sp Hv Hq. unfold encode in *. rewrite parse_header by assumption.
  assert (Ln := concat_length_ge f rs Fo). rewrite app_length in Hf.
  replace fuel with (length rs + S (fuel - length rs - 1)) by lia.
  set (enc := concat (map (encode_record f) rs)) in *.
  pose proof (loop_sim Q V f idx rs [] [] (encode_header f) 8 ops {| s_dir := dir; s_path := [SEP]; s_folder := None |} [] 1 (S (fuel - length rs - 1)) Fo Ro eq_refl) as L.
  fold enc in L. rewrite !app_nil_r in L. cbv zeta in L.
  destruct (L Hl (sim_start Q V ops dir D C) Sp Su Hv Hq) as (st & ops' & cur' & len' & news & E & S & _ & _ & R & Rf & F).
  rewrite E. rewrite loop_S. unfold record_step at 1. rewrite Z.eqb_refl. cbn [bind].
  exists (s_dir st), ops', news. split; [reflexivity|]. destruct S as [D' _ _ C']. auto.
Qed.

(** ** All files *)
Definition rel_files (files : list (option disk)) (e : list (list Z) * info) (s : list (list Z) * (Z * list Z)) : Prop :=
  fst e = fst s /\ let '(vt, sz, fi, p) := snd e in let '(t, pl) := snd s in
  vt = t /\ sz = Z.of_nat (length pl) /\
  exists a c, nth_error files (Z.to_nat fi) = Some (Some (Content (a ++ pl ++ c))) /\ p = Z.of_nat (length a).

Lemma Forall2_impl_in {A B} (P Q : A -> B -> Prop) l m : (forall a b, P a b -> Q a b) -> Forall2 P l m -> Forall2 Q l m.
Proof. intros H F. induction F; constructor; auto. Qed.

Lemma all_stored_app a b : all_stored (a ++ b) = all_stored a ++ all_stored b.
Proof. unfold all_stored. rewrite map_app, concat_app. reflexivity. Qed.

Lemma parse_files_sim Q V : forall files done ops dir fuel, length (done ++ files) <= 256 -> Forall file_ok files -> separate Q V ->
  Forall (fun f => length (encode (fst (snd f)) (snd (snd f))) < fuel) files ->
  denotes ops dir -> covers Q V ops ->
  (forall p, In p (all_visited files) -> In p V) -> (forall q v, In (q, v) (all_stored files) -> In q Q) ->
  Forall2 (rel_files (map (fun f => Some (snd (on_disk f))) (done ++ files))) (records [] ops) (all_stored done) ->
  exists dir' ops', parse_files fuel dir (Z.of_nat (length done)) (map on_disk files) =
      OK (dir', map (fun f => Some (snd (on_disk f))) files, []) /\ denotes ops' dir' /\ covers Q V ops' /\ folder_paths ops' = folder_paths ops ++ nonroot (all_visited files) /\
    Forall2 (rel_files (map (fun f => Some (snd (on_disk f))) (done ++ files))) (records [] ops') (all_stored (done ++ files)).
Proof.
  induction files as [|[nm [f rs]] files IH]; intros done ops dir fuel L Fo Sp Fu D C Hv Hq R.
  - exists dir, ops. rewrite app_nil_r. rewrite app_nil_r in R. cbn. rewrite app_nil_r. auto.
  - inversion Fo as [|? ? (O1 & O2 & O3 & O4) Fo2]; subst. inversion Fu as [|? ? Fu1 Fu2]; subst. cbn [fst snd] in *.
    cbn [map parse_files]. unfold on_disk at 1. cbn [fst snd].
    destruct (parse_file_sim Q V f rs (Z.of_nat (length done)) ops dir fuel O1 O2 O3 O4 Fu1 D C Sp) as (d1 & ops1 & news & E1 & D1 & C1 & R1 & V1 & F1).
    { intros p I. apply Hv. unfold all_visited. cbn [map concat]. apply in_or_app. auto. }
    { intros q v I. apply (Hq q v). unfold all_stored. cbn [map concat]. apply in_or_app. auto. }
    rewrite E1. cbn [bind].
    assert (Ed : done ++ (nm, (f, rs)) :: files = (done ++ [(nm, (f, rs))]) ++ files) by (rewrite <- app_assoc; reflexivity).
    rewrite Ed in L, R |- *.
    destruct (IH (done ++ [(nm, (f, rs))]) ops1 d1 fuel L Fo2 Sp Fu2 D1 C1) as (d2 & ops2 & E2 & D2 & C2 & V2 & R2).
    { intros p I. apply Hv. unfold all_visited. cbn [map concat]. apply in_or_app. auto. }
    { intros q v I. apply (Hq q v). unfold all_stored. cbn [map concat]. apply in_or_app. auto. }
    { rewrite R1, all_stored_app. unfold all_stored at 2. cbn [map concat fst snd]. rewrite app_nil_r. apply Forall2_app; [exact R|].
      eapply Forall2_impl_in; [|exact F1]. intros [q [[[vt sz] fi] p]] [q' [t pl]] (A1 & A2 & A3 & A4 & a & c & A5 & A6). cbn [fst snd] in *.
      split; [exact A1|]. cbn [snd]. split; [exact A2|]. split; [exact A3|]. exists a, c. split; [|exact A6]. subst fi.
      rewrite app_length in L. rewrite app_length in L. cbn [length] in L.
      unfold u8. rewrite Z.mod_small by lia. rewrite Nat2Z.id. rewrite <- Ed, map_app. cbn [map].
      rewrite nth_error_app2 by (rewrite map_length; lia). rewrite map_length, Nat.sub_diag. cbn [nth_error]. unfold on_disk. cbn [fst snd]. rewrite A5. reflexivity. }
    rewrite app_length in E2. cbn [length] in E2. replace (Z.of_nat (length done) + 1)%Z with (Z.of_nat (length done + 1)) by lia.
    rewrite E2. cbn [bind]. exists d2, ops2. split; [reflexivity|]. split; [exact D2|]. split; [exact C2|]. split; [|exact R2].
    rewrite V2, V1. unfold all_visited. cbn [map concat fst snd]. rewrite nonroot_app, app_assoc. reflexivity.
Qed.

Lemma cleanup_good (l : list disk) : forall fuel cur, length l - cur < fuel -> cleanup fuel (map Some l) cur = OK (map Some l).
Proof.
  induction fuel as [|fuel IH]; intros cur H; [lia|]. cbn [cleanup]. rewrite map_length.
  destruct (cur <? length l) eqn:B; [|reflexivity]. apply Nat.ltb_lt in B.
  unfold aget. rewrite nth_error_map. destruct (nth_error l cur) as [d|] eqn:E; [|apply nth_error_None in E; lia]. cbn. apply IH. lia.
Qed.

(** ** Opening and reading *)
Lemma stored_deep : forall rs cur len q v, supported cur len rs -> In (q, v) (stored cur rs) -> exists c n, q = c ++ [n] /\ c <> [].
Proof.
  induction rs as [|[path|t n pl|c pl] rs IH]; intros cur len q v S I; cbn [stored] in I; [contradiction| | |]; cbn [supported] in S.
  - unfold cd_to in I. destruct (is_abs path).
    + destruct S as (_ & Nd & S). rewrite cd_one_no in I by assumption. cbn in I. eapply IH; eassumption.
    + destruct S as (_ & S). destruct (walk cur len (elements path)) as [[cur' len']|] eqn:W; [|contradiction]. destruct S as [_ S].
      rewrite <- (walk_cd _ _ _ _ _ W) in I. eapply IH; eassumption.
  - destruct S as [Nc S]. destruct I as [I|I]; [injection I as <- _; exists cur, n; auto|]. eapply IH; eassumption.
  - eapply IH; eassumption.
Qed.
Lemma all_stored_deep files q v : Forall file_ok files -> In (q, v) (all_stored files) -> exists c n, q = c ++ [n] /\ c <> [].
Proof.
  intros F I. unfold all_stored in I. apply in_concat in I as (l & Hl & I). apply in_map_iff in Hl as (f & <- & Hf).
  rewrite Forall_forall in F. destruct (F f Hf) as (_ & _ & S & _). eapply stored_deep; eassumption.
Qed.

Lemma open_sim pattern files fuel : files <> [] -> length files <= 256 -> Forall file_ok files -> no_clash files ->
  Forall (fun f => length (encode (fst (snd f)) (snd (snd f))) < fuel) files ->
  exists b ops, binout_open fuel pattern (map on_disk files) = OK b /\ b_error b = None /\ b_files b = map (fun f => Some (snd (on_disk f))) files /\
    denotes ops (b_dir b) /\ noclash ops /\ Forall2 (rel_files (b_files b)) (records [] ops) (all_stored files).
Proof.
  intros Ne L Fo Nc Fu.
  set (Q := map fst (all_stored files)). set (V := all_visited files).
  assert (Sp : separate Q V).
  { intros q p Iq Ip. unfold Q in Iq. apply in_map_iff in Iq as ([q' v] & <- & Iq). exact (Nc q' v p Iq Ip). }
  destruct (parse_files_sim Q V files [] [] [] fuel L Fo Sp Fu denotes_nil) as (dir & ops & E & D & C & Vf & R); auto.
  { apply covers_nil. }
  { intros q v I. unfold Q. apply in_map_iff. exists (q, v). auto. }
  { constructor. }
  unfold binout_open. destruct files as [|x files]; [congruence|]. set (fs := x :: files) in *.
  change (map on_disk fs) with (on_disk x :: map on_disk files) at 1.
  cbv iota. change (Z.of_nat (length (@nil bfile))) with 0%Z in E. rewrite E. cbn [bind].
  cbn [app] in R.
  replace (map (fun f => Some (snd (on_disk f))) fs) with (map Some (map (fun f => snd (on_disk f)) fs)) in * by (rewrite map_map; reflexivity).
  rewrite cleanup_good by (rewrite !map_length; lia). cbn [bind].
  eexists. exists ops. split; [reflexivity|]. cbn [b_error b_files b_dir]. split; [reflexivity|]. split; [reflexivity|].
  split; [exact D|]. split; [|exact R]. eapply separate_noclash; eassumption.
Qed.

Lemma Forall2_split_l {A B} (P : A -> B -> Prop) l1 x l2 m : Forall2 P (l1 ++ x :: l2) m -> exists m1 y m2, m = m1 ++ y :: m2 /\ P x y /\ Forall2 P l2 m2 /\ Forall2 P l1 m1.
Proof.
  intros F. apply Forall2_app_inv_l in F as (m1 & m' & F1 & F2 & ->). inversion F2; subst. exists m1, y, l'. auto.
Qed.
Lemma Forall2_in_r {A B} (P : A -> B -> Prop) l m y : Forall2 P l m -> In y m -> exists x, In x l /\ P x y.
Proof. intros F. induction F; intros I; [contradiction|]. destruct I as [<-|I]; [exists x; split; [left; reflexivity|assumption]|]. destruct (IHF I) as (x' & ? & ?). exists x'. split; [right|]; assumption. Qed.

Lemma last_rel fs l m p o : Forall2 (rel_files fs) l m -> last_record l p o ->
  exists o', last_stored m p o' /\ match o, o' with
    | Some i, Some v => rel_files fs (p, i) (p, v)
    | None, None => True
    | _, _ => False end.
Proof.
  intros F L. destruct o as [i|]; cbn [last_record] in L.
  - destruct L as (a & b & -> & Nb). destruct (Forall2_split_l _ _ _ _ _ F) as (m1 & [q v] & m2 & -> & P & F2 & _).
    assert (q = p) as -> by (symmetry; apply (proj1 P)). exists (Some v). split; [|exact P]. exists m1, m2. split; [reflexivity|].
    intros w I. destruct (Forall2_in_r _ _ _ _ F2 I) as ([q j] & Ij & Pj). assert (q = p) as -> by (apply (proj1 Pj)). exact (Nb j Ij).
  - exists None. split; [|trivial]. intros w I. destruct (Forall2_in_r _ _ _ _ F I) as ([q j] & Ij & Pj).
    assert (q = p) as -> by (apply (proj1 Pj)). exact (L j Ij).
Qed.

Lemma read_fails_spec old m : length m < 1024 -> exists e, read_fails old m = OK {| r_data := None; r_size := old; r_error := Some e |}.
Proof. intros H. unfold read_fails, error_string. rewrite (proj2 (Nat.ltb_lt _ _) H). eexists. reflexivity. Qed.

Lemma type_name_length t : length (type_name t) <= 7.
Proof. unfold type_name. repeat (destruct (_ =? _)%Z; [cbn; lia|]). cbn. lia. Qed.
Lemma type_size_spec t : (0 <= t)%Z -> type_size t = element_bytes t.
Proof.
  intros H. unfold type_size, element_bytes.
  destruct (Z_lt_ge_dec t 11) as [L|L].
  - assert (t = 0 \/ t = 1 \/ t = 2 \/ t = 3 \/ t = 4 \/ t = 5 \/ t = 6 \/ t = 7 \/ t = 8 \/ t = 9 \/ t = 10)%Z as K by lia.
    repeat (destruct K as [->|K]; [reflexivity|]). subst. reflexivity.
  - rewrite !(proj2 (Z.eqb_neq _ _)) by lia. rewrite nth_overflow by (simpl; lia). reflexivity.
Qed.

Lemma read_sim b ops ms old path t : denotes ops (b_dir b) -> noclash ops -> Forall2 (rel_files (b_files b)) (records [] ops) ms ->
  (forall q v, In (q, v) ms -> exists c n, q = c ++ [n] /\ c <> []) ->
  (forall x a p, nth_error (b_files b) x = Some (Some (Content (a ++ p))) -> (Z.of_nat (length a) < 2 ^ 63)%Z) ->
  ascii_str path -> absolute path -> length path < 900 -> (0 <= t)%Z ->
  exists o r, last_stored ms (elements path) o /\ binout_read b old path t = OK r /\ read_meets t o r /\ (r_data r = None -> r_size r = old).
Proof.
  intros D Nc F Deep Small As Ab Lp Ht.
  assert (Top : forall n i, nd (b_dir b) [n] <> Some (NFile i)).
  { intros n i N. pose proof (proj2 D [n]) as K. rewrite N in K. destruct (last_rel _ _ _ _ _ F K) as ([v|] & L & R); [|contradiction].
    destruct L as (a & c & -> & _). destruct (Deep [n] v) as (c0 & m & E & Ne); [apply in_or_app; right; left; reflexivity|].
    destruct c0 as [|x c0]; [congruence|]. injection E as _ E. destruct c0; discriminate. }
  pose proof (get_file_spec (b_dir b) path (proj1 D) As Ab Top) as G. unfold get_file in G.
  pose proof (proj2 D (elements path)) as K.
  unfold binout_read. destruct (path_view_new path) as [pv| |]; try discriminate. cbn [bind] in G |- *. rewrite G. cbn [bind].
  destruct (nd (b_dir b) (elements path)) as [[[[[vt sz] fi] p]|]|]; cbn [as_file].
  - destruct (last_rel _ _ _ _ _ F K) as ([[ty pl]|] & L & R); [|contradiction].
    destruct R as (_ & R1 & R2 & a & c & R3 & R4). cbn [snd] in *. subst vt sz p.
    exists (Some (ty, pl)). destruct (Z.eqb_spec ty t) as [->|Hne]; cbn [negb].
    + destruct (Z.eqb_spec (Z.of_nat (length pl)) 0) as [Hz|Hz].
      * destruct pl; [|simpl in Hz; lia].
        destruct (read_fails_spec old (bs "The file """ ++ path ++ bs """ is empty")) as (e & ->); [rewrite !app_length; cbn [length bs]; lia|].
        eexists. split; [exact L|]. split; [reflexivity|]. split; [|reflexivity]. split; [intros [_ X]; congruence|]. intros _. split; [reflexivity|discriminate].
      * unfold aget. rewrite R3. cbn [bind]. unfold fseek_to.
        assert (H63 := Small _ a (pl ++ c) R3). rewrite (proj2 (Z.leb_le _ _)), (proj2 (Z.ltb_lt _ _)) by lia. cbn [andb].
        rewrite (fread_mid a pl c _ _ 1 eq_refl) by lia.
        eexists. split; [exact L|]. split; [reflexivity|]. split; [|discriminate]. cbn [r_data r_size r_error]. rewrite type_size_spec by assumption.
        split; [auto|]. intros X. exfalso. apply X. split; [reflexivity|]. intros ->. apply Hz. reflexivity.
    + destruct (read_fails_spec old (bs """" ++ path ++ bs """ is of type " ++ type_name ty ++ bs " instead of " ++ type_name t)) as (e & ->).
      { pose proof (type_name_length ty). pose proof (type_name_length t). rewrite !app_length. cbn [length bs]. lia. }
      eexists. split; [exact L|]. split; [reflexivity|]. split; [|reflexivity]. split; [intros [X _]; congruence|]. intros _. split; [reflexivity|discriminate].
  - destruct (read_fails_spec old (bs """" ++ path ++ bs """ has not been found")) as (e & ->); [rewrite !app_length; cbn [length bs]; lia|].
    exists None. eexists. split; [|split; [reflexivity|split; [split; [reflexivity|discriminate]|reflexivity]]].
    intros w I. destruct (Forall2_in_r _ _ _ _ F I) as ([q j] & Ij & Pj). assert (q = elements path) as -> by (apply (proj1 Pj)).
    destruct K as [K|K]; [|exact (Nc _ _ Ij K)]. destruct (Deep _ _ I) as (c & n & E & _). rewrite K in E. destruct c; discriminate.
  - destruct (read_fails_spec old (bs """" ++ path ++ bs """ has not been found")) as (e & ->); [rewrite !app_length; cbn [length bs]; lia|].
    destruct (last_rel _ _ _ _ _ F (proj1 K)) as ([v|] & L & R); [contradiction|].
    exists None. eexists. split; [exact L|]. split; [reflexivity|split; [split; [reflexivity|discriminate]|reflexivity]].
Qed.

(** ** Truncated files *)
Lemma fread_short data pos size count : (0 < count)%Z -> (Z.of_nat (length data) < pos + size * count)%Z -> fread data pos size count = None.
Proof.
  intros Hc H. unfold fread. rewrite (proj2 (Z.eqb_neq count 0)) by lia. rewrite (proj2 (Z.leb_gt _ _)) by lia. rewrite andb_false_r. reflexivity.
Qed.

Lemma step_behind h idx data pos st : (0 < h_length h)%Z -> (Z.of_nat (length data) < pos)%Z -> record_step h idx data (pos, st) = OK (inr (st, Some msg_length)).
Proof.
  intros Hh H. unfold record_step. rewrite (proj2 (Z.eqb_neq _ _)) by lia. rewrite fread_short by lia. reflexivity.
Qed.

Lemma firstn_in {A} k (a b : list A) : length a <= k -> firstn k (a ++ b) = a ++ firstn (k - length a) b.
Proof. intros H. rewrite firstn_app, firstn_all2 by lia. reflexivity. Qed.

Ltac cut_msg := unfold cut_message; cbv zeta; repeat (match goal with |- context [if (?a <? ?b) then _ else _] => destruct (Nat.ltb_spec a b); try lia end); reflexivity.
Lemma step_trunc Q V f idx r rs pre k pos ops st cur len : format_ok f -> record_ok f r -> pos = Z.of_nat (length pre) -> 0 < k < record_size f r ->
  let data := pre ++ firstn k (encode_record f r) in
  (Z.of_nat (length data) < 2 ^ 62)%Z ->
  sim Q V ops st cur len -> separate Q V -> supported cur len (r :: rs) -> (forall q v, In (q, v) (stored cur [r]) -> In q Q) ->
  exists dir, forall fuel, exists st', loop (S (S fuel)) (record_step (hd f) idx data) (pos, st) = OK (st', Some (cut_message f r k)) /\ s_dir st' = dir.
Proof.
  intros Fo Ro Hp Hk data Hl S Sp Su Hq. pose proof Fo as (F1 & F2 & F3). pose proof Ro as (R1 & R2 & R3 & R4).
  assert (Le := encode_record_length f r).
  assert (Ld : Z.of_nat (length data) = (pos + Z.of_nat k)%Z) by (unfold data; rewrite app_length, firstn_length, Le; lia).
  assert (Lr2 : record_size f r = f_length f + f_command f + length (body f r)) by reflexivity.
  assert (Stop : forall m, m = cut_message f r k -> record_step (hd f) idx data (pos, st) = OK (inr (st, Some m)) ->
     exists dir, forall fuel, exists st', loop (Datatypes.S (Datatypes.S fuel)) (record_step (hd f) idx data) (pos, st) = OK (st', Some (cut_message f r k)) /\ s_dir st' = dir).
  { intros m <- E. exists (s_dir st). intros fuel. exists st. rewrite loop_S, E. auto. }
  assert (Go : forall p st', msg_length = cut_message f r k -> record_step (hd f) idx data (pos, st) = OK (inl (p, st')) -> (Z.of_nat (length data) < p)%Z ->
     exists dir, forall fuel, exists st', loop (Datatypes.S (Datatypes.S fuel)) (record_step (hd f) idx data) (pos, st) = OK (st', Some (cut_message f r k)) /\ s_dir st' = dir).
  { intros p st' <- E B. exists (s_dir st'). intros fuel. exists st'. rewrite loop_S, E, loop_S. rewrite step_behind; [auto|cbn; lia|exact B]. }
  assert (Np : (pos =? Z.of_nat (length data))%Z = false) by (apply Z.eqb_neq; lia).
  destruct (le_lt_dec (f_length f) k) as [K1|K1].
  2:{ apply (Stop msg_length); [cut_msg|]. unfold record_step. rewrite Np. rewrite fread_short by (cbn; lia). reflexivity. }
  set (L := le_bytes (f_length f) (Z.of_nat (record_size f r))) in *. set (C := le_bytes (f_command f) (command r)) in *.
  assert (LL : length L = f_length f) by apply le_bytes_length. assert (LC : length C = f_command f) by apply le_bytes_length.
  assert (D1 : data = pre ++ L ++ firstn (k - f_length f) (C ++ body f r)).
  { unfold data, encode_record. fold L C. rewrite firstn_in by lia. rewrite LL. reflexivity. }
  assert (E1 : fread data pos (h_length (hd f)) 1 = Some (L, (pos + Z.of_nat (f_length f))%Z)).
  { rewrite D1, (fread_mid pre L _ pos (h_length (hd f)) 1 Hp); [cbn; rewrite Z.mul_1_r; reflexivity|cbn; lia|cbn; lia|lia]. }
  destruct (le_lt_dec (f_length f + f_command f) k) as [K2|K2].
  2:{ apply (Stop msg_command); [cut_msg|]. unfold record_step. rewrite Np, E1. rewrite fread_short by (cbn; lia). reflexivity. }
  set (k' := k - f_length f - f_command f).
  assert (D2 : data = (pre ++ L) ++ C ++ firstn k' (body f r)).
  { rewrite D1, firstn_in by lia. rewrite LC, <- app_assoc. reflexivity. }
  assert (E2 : fread data (pos + Z.of_nat (f_length f)) (h_command (hd f)) 1 = Some (C, (pos + Z.of_nat (f_length f) + Z.of_nat (f_command f))%Z)).
  { rewrite D2, (fread_mid (pre ++ L) C _ _ (h_command (hd f)) 1); [cbn; rewrite Z.mul_1_r; reflexivity|rewrite app_length; lia|cbn; lia|cbn; lia|lia]. }
  set (p2 := (pos + Z.of_nat (f_length f) + Z.of_nat (f_command f))%Z) in *. set (dl := Z.of_nat (length (body f r))).
  assert (VL : le_value L = Z.of_nat (record_size f r)) by (apply le_value_bytes; lia).
  assert (VC : le_value C = command r) by (apply le_value_bytes; lia).
  assert (Edl : u64 (le_value L - h_length (hd f) - h_command (hd f)) = dl) by (rewrite VL, u64_small; cbn [hd h_length h_command]; unfold dl; lia).
  unfold record_step in Stop, Go. rewrite Np, E1, E2, VC, Edl in Stop, Go. cbv zeta in Stop, Go.
  destruct r as [path|type name payload|c payload]; cbn [command body] in *.
  - (* the path is cut *)
    cbn [Z.eqb Pos.eqb] in Stop. destruct R4 as [R4 _]. rewrite (proj2 (Z.ltb_lt dl 1024)) in Stop by (unfold dl; lia). cbn [negb] in Stop.
    apply (Stop msg_path); [cut_msg|]. rewrite fread_short by (unfold p2, dl; lia). reflexivity.
  - (* the type, the name or the data is cut *)
    cbn [Z.eqb Pos.eqb] in Stop, Go. cbn [supported] in Su. destruct Su as [Nc Su]. destruct R4 as (Rt & Rn & Ra).
    destruct S as [D P F Cv]. destruct (F Nc) as (a & Fa & Kc & Ec).
    assert (Lb : length (le_bytes (f_typeid f) type ++ Z.of_nat (length name) :: name ++ payload) = f_typeid f + 1 + length name + length payload).
    { rewrite app_length, le_bytes_length. cbn [length]. rewrite app_length. lia. }
    unfold data_record in Stop, Go. rewrite Fa in Stop, Go.
    destruct (le_lt_dec (f_typeid f) k') as [K3|K3].
    2:{ apply (Stop msg_typeid); [cut_msg|]. rewrite fread_short by (cbn; unfold p2; lia). reflexivity. }
    set (T := le_bytes (f_typeid f) type) in *. assert (LT : length T = f_typeid f) by apply le_bytes_length.
    assert (D3 : data = ((pre ++ L) ++ C) ++ T ++ firstn (k' - f_typeid f) ([Z.of_nat (length name)] ++ name ++ payload)).
    { rewrite D2, firstn_in by lia. rewrite LT, <- !app_assoc. reflexivity. }
    assert (E3 : fread data p2 (h_typeid (hd f)) 1 = Some (T, (p2 + Z.of_nat (f_typeid f))%Z)).
    { rewrite D3, (fread_mid ((pre ++ L) ++ C) T _ _ (h_typeid (hd f)) 1); [cbn; rewrite Z.mul_1_r; reflexivity|unfold p2; rewrite !app_length; lia|cbn; lia|cbn; lia|lia]. }
    rewrite E3 in Stop, Go.
    destruct (le_lt_dec (f_typeid f + 1) k') as [K4|K4].
    2:{ apply (Stop msg_name_length); [cut_msg|]. rewrite fread_short by (unfold p2; lia). reflexivity. }
    assert (D4 : data = (((pre ++ L) ++ C) ++ T) ++ [Z.of_nat (length name)] ++ firstn (k' - f_typeid f - 1) (name ++ payload)).
    { rewrite D3, firstn_in by (cbn [length]; lia). cbn [length]. rewrite <- !app_assoc. reflexivity. }
    assert (E4 : fread data (p2 + Z.of_nat (f_typeid f)) 1 1 = Some ([Z.of_nat (length name)], (p2 + Z.of_nat (f_typeid f) + 1 * 1)%Z)).
    { rewrite D4, (fread_mid (((pre ++ L) ++ C) ++ T) [Z.of_nat (length name)] _ _ 1 1); [reflexivity|unfold p2; rewrite !app_length; lia|cbn; lia|lia|lia]. }
    rewrite E4 in Stop, Go. cbn [le_value] in Stop, Go.
    replace (Z.of_nat (length name) + 256 * 0)%Z with (Z.of_nat (length name)) in Stop, Go by lia. cbv zeta in Stop, Go.
    destruct (le_lt_dec (f_typeid f + 1 + length name) k') as [K5|K5].
    2:{ apply (Stop msg_name); [cut_msg|]. rewrite fread_short by (unfold p2; lia). reflexivity. }
    assert (D5 : data = ((((pre ++ L) ++ C) ++ T) ++ [Z.of_nat (length name)]) ++ name ++ firstn (k' - f_typeid f - 1 - length name) payload).
    { rewrite D4, firstn_in by lia. rewrite <- !app_assoc. reflexivity. }
    assert (E5 : fread data (p2 + Z.of_nat (f_typeid f) + 1 * 1) 1 (Z.of_nat (length name)) =
       Some (name, (p2 + Z.of_nat (f_typeid f) + 1 * 1 + 1 * Z.of_nat (length name))%Z)).
    { rewrite D5, (fread_mid _ name _ _ 1 (Z.of_nat (length name))); [reflexivity|unfold p2; rewrite !app_length; cbn [length]; lia|lia|lia|lia]. }
    rewrite E5 in Stop, Go. change NUL with 0%Z in Go. rewrite (cstring_at_app name []) in Go by (apply is_cstr_nonzero, ascii_is_cstr; assumption). cbn [bind] in Go.
    set (p5 := (p2 + Z.of_nat (f_typeid f) + 1 * 1 + 1 * Z.of_nat (length name))%Z) in *.
    assert (Ey : u64 (dl - h_typeid (hd f) - 1 - Z.of_nat (length name)) = Z.of_nat (length payload)).
    { unfold dl. cbn [hd h_typeid]. rewrite u64_small by lia. lia. }
    rewrite Ey in Go. rewrite fseek_cur_small in Go by (unfold p5, p2; lia).
    set (i := (u8 (le_value T), Z.of_nat (length payload), u8 idx, p5)).
    assert (Rec : records [] (ops ++ [OpFile name i]) = records [] ops ++ [(cur ++ [name], i)]) by (rewrite records_app, Ec; reflexivity).
    assert (C' : covers Q V (ops ++ [OpFile name i])) by (apply (covers_file Q V ops name i cur); auto; eapply Hq; left; reflexivity).
    destruct (step_file ops (s_dir st) a name i D Kc Ra (separate_noclash Q V _ C' Sp)) as (dir' & E' & D' & K').
    unfold insert_variable, i in E'. rewrite E' in Go. cbn [bind] in Go. eapply Go; [cut_msg|reflexivity|]. unfold p5, p2. lia.
  - destruct R4 as [R4 R5]. rewrite (proj2 (Z.eqb_neq c 2)), (proj2 (Z.eqb_neq c 3)) in Go by assumption.
    rewrite fseek_cur_small in Go by (unfold p2, dl; lia). eapply Go; [cut_msg|reflexivity|]. unfold p2, dl. lia.
Qed.

Lemma visited_app : forall a cur b, visited cur (a ++ b) = visited cur a ++ visited (fold_left cd_next a cur) b.
Proof. induction a as [|[p|t n pl|c pl] a IH]; intros cur b; cbn; rewrite ?IH; reflexivity. Qed.
Lemma stored_app : forall a cur b, stored cur (a ++ b) = stored cur a ++ stored (fold_left cd_next a cur) b.
Proof. induction a as [|[p|t n pl|c pl] a IH]; intros cur b; cbn; rewrite ?IH; reflexivity. Qed.

Lemma parse_trunc nm f rs r k idx fuel : file_ok (nm, (f, rs ++ [r])) -> no_clash [(nm, (f, rs ++ [r]))] -> 0 < k < record_size f r ->
  length (encode f (rs ++ [r])) + 1 < fuel ->
  exists dir, parse_file fuel [] idx (Content (encode f rs ++ firstn k (encode_record f r))) = OK (dir, Some (cut_message f r k)).
Proof.
  intros (Fo & Ro & Su & Hl) Nc Hk Hf. cbn [fst snd] in *.
  apply Forall_app in Ro as [Ro1 Ro2]. inversion Ro2 as [|? ? Ro3 _]; subst.
  unfold encode in *. rewrite <- app_assoc. rewrite parse_header by assumption.
  rewrite map_app, concat_app in Hl, Hf. cbn [map concat] in Hl, Hf. rewrite app_nil_r in Hl, Hf. rewrite !app_length in Hl, Hf.
  assert (Ln := concat_length_ge f rs Fo). rewrite encode_record_length in Hl, Hf.
  set (enc := concat (map (encode_record f) rs)) in *. set (t := firstn k (encode_record f r)) in *.
  assert (Lt : length t <= record_size f r) by (unfold t; rewrite firstn_length, encode_record_length; lia).
  set (Q := map fst (stored [] (rs ++ [r]))). set (V := visited [] (rs ++ [r])).
  assert (Sp : separate Q V).
  { intros q p Iq Ip. unfold Q in Iq. apply in_map_iff in Iq as ([q' v] & <- & Iq). apply (Nc q' v p).
    - unfold all_stored. cbn [map concat fst snd]. rewrite app_nil_r. exact Iq.
    - unfold all_visited. cbn [map concat fst snd]. rewrite app_nil_r. exact Ip. }
  assert (C0 : covers Q V []) by apply covers_nil.
  destruct (loop_sim Q V f idx rs [r] t (encode_header f) 8 [] {| s_dir := []; s_path := [SEP]; s_folder := None |} [] 1
    (S (S (fuel - length rs - 2))) Fo Ro1 eq_refl) as (st & ops' & cur' & len' & news & E & S & Su' & Ec & R & _ & F); auto.
  { fold enc. rewrite !app_length. lia. }
  { apply sim_start; [exact denotes_nil|exact C0]. }
  { intros p I. unfold V. rewrite visited_app. apply in_or_app. auto. }
  { intros q v I. unfold Q. apply in_map_iff. exists (q, v). split; [reflexivity|]. rewrite stored_app. apply in_or_app. auto. }
  fold enc in E. replace (length rs + Datatypes.S (Datatypes.S (fuel - length rs - 2))) with fuel in E by lia. rewrite E.
  rewrite app_assoc.
  destruct (step_trunc Q V f idx r [] (encode_header f ++ enc) k _ ops' st cur' len' Fo Ro3 eq_refl Hk) as (dir & H); auto.
  { fold t. rewrite !app_length. lia. }
  { intros q v I. unfold Q. apply in_map_iff. exists (q, v). split; [reflexivity|]. rewrite stored_app, <- Ec. apply in_or_app. auto. }
  fold t in H. destruct (H (fuel - length rs - 2)) as (st' & E2 & Ed). rewrite E2. cbn [bind]. exists (s_dir st'). reflexivity.
Qed.

(** ** Files that failed *)
Fixpoint alive (l : list (option disk)) : nat := match l with [] => 0 | None :: r => alive r | Some _ :: r => S (alive r) end.
Lemma alive_app a b : alive (a ++ b) = alive a + alive b.
Proof. induction a as [|[d|] a IH]; cbn; lia. Qed.
Lemma alive_le l : alive l <= length l.
Proof. induction l as [|[d|] l IH]; cbn; lia. Qed.
Lemma alive_all l : (forall x, In x l -> x <> None) -> alive l = length l.
Proof. induction l as [|[d|] l IH]; intros H; cbn; [reflexivity|rewrite IH; auto; intros; apply H; right; assumption|]. exfalso. apply (H None); [left|]; reflexivity. Qed.

Lemma cleanup_spec : forall fuel good rest, (forall x, In x good -> x <> None) -> 2 * length rest < fuel ->
  exists l, cleanup fuel (good ++ rest) (length good) = OK l /\ length l = length good + alive rest /\ (forall x, In x l -> x <> None) /\ forall k d, nth_error (good ++ rest) k = Some (Some d) -> k < length l -> nth_error l k = Some (Some d).
Proof.
  induction fuel as [|fuel IH]; intros good rest G H; [lia|]. cbn [cleanup]. rewrite app_length.
  destruct rest as [|x rest].
  - cbn [length alive] in *. rewrite Nat.add_0_r, Nat.ltb_irrefl, app_nil_r. exists good. split; [reflexivity|]. split; [lia|]. auto.
  - cbn [length] in *. rewrite (proj2 (Nat.ltb_lt _ _)) by lia.
    unfold aget at 1. rewrite nth_error_app2, Nat.sub_diag by lia. cbn [nth_error bind]. destruct x as [d|].
    + cbn [alive]. destruct (IH (good ++ [Some d]) rest) as (l & E & L & Al & N); [|lia|].
      { intros x I. apply in_app_or in I as [I|[<-|[]]]; [apply G; exact I|discriminate]. }
      rewrite <- app_assoc in E, N. cbn [app] in E, N. rewrite app_length in E, L. cbn [length] in E, L.
      exists l. split; [exact E|]. split; [lia|]. auto.
    + replace (length good + S (length rest) - 1) with (length good + length rest) by lia.
      destruct (exists_last (l := None :: rest) ltac:(discriminate)) as (r & z & Er).
      assert (Lr : length rest = length r) by (apply (f_equal (@length _)) in Er; rewrite app_length in Er; cbn [length] in Er; lia).
      rewrite Er. rewrite Lr.
      assert (Ez : aget (good ++ r ++ [z]) (length good + length r) = OK z).
      { rewrite app_assoc, <- app_length. unfold aget. rewrite nth_error_app2, Nat.sub_diag by lia. reflexivity. }
      rewrite Ez. cbn [bind].
      destruct r as [|r0 r].
      * (* the failed file is the last one *)
        cbn [app length Nat.add] in *. injection Er as <- ->. rewrite Nat.add_0_r. rewrite aset_exact. cbn [bind].
        rewrite app_length. cbn [length]. replace (length good + 1 - 1) with (length good) by lia. rewrite firstn_app_exact.
        destruct (IH good [] G) as (l & E & L & Al & N); [simpl; lia|]. rewrite app_nil_r in E, N. cbn [alive] in *.
        exists l. split; [exact E|]. split; [lia|]. split; [exact Al|]. intros k d Hk Lk. apply N; [|exact Lk]. rewrite <- Hk, nth_error_app1 by lia. reflexivity.
      * cbn [app] in Er. injection Er as <- Er. cbn [app]. rewrite aset_exact. cbn [bind].
        rewrite app_length. cbn [length]. rewrite app_length. cbn [length].
        replace (length good + S (length r + 1) - 1) with (length (good ++ z :: r)) by (rewrite app_length; cbn [length]; lia).
        replace (good ++ z :: r ++ [z]) with ((good ++ z :: r) ++ [z]) by (rewrite <- app_assoc; reflexivity). rewrite firstn_app_exact.
        destruct (IH good (z :: r) G) as (l & E & L & Al & N).
        { cbn [length] in Lr |- *. lia. }
        exists l. split; [exact E|].
        assert (Ar : alive rest = alive (z :: r)).
        { rewrite Er, alive_app. destruct z; cbn; lia. }
        split; [cbn [alive]; rewrite <- Er, Ar; exact L|]. split; [exact Al|].
        intros k d Hk Lk. apply N; [|exact Lk]. 
        pose proof (alive_le (z :: r)) as Ale. cbn [length] in Ale.
        destruct (Nat.lt_trichotomy k (length good)) as [B|[B|B]].
        -- rewrite nth_error_app1 in Hk |- * by lia. exact Hk.
        -- subst k. rewrite nth_error_app2, Nat.sub_diag in Hk by lia. discriminate.
        -- rewrite nth_error_app2 in Hk |- * by lia. destruct (k - length good) as [|m] eqn:Em; [lia|]. cbn [nth_error] in Hk |- *.
           rewrite nth_error_app1 in Hk by lia. exact Hk.
Qed.

Lemma parse_rejected fuel dir idx d : rejected d -> parse_file fuel dir idx d = OK (dir, Some (reject_message d)).
Proof.
  destruct d as [why|data]; cbn [rejected parse_file reject_message]; [reflexivity|]. intros B.
  destruct (fread data 0 8 1) as [[b pos]|] eqn:E.
  2:{ unfold fread in E. cbn [Z.eqb Z.ltb Z.compare Z.mul Pos.mul andb Z.add] in E. destruct (Z.leb_spec 8 (Z.of_nat (length data))) as [L8|L8]; [discriminate E|]. destruct (Nat.ltb_spec (length data) 8); [reflexivity|lia]. }
  unfold fread in E. cbn [Z.eqb Z.ltb Z.compare Z.mul Pos.mul andb Z.add] in E. destruct (8 <=? Z.of_nat (length data))%Z eqn:L8; [|discriminate]. apply Z.leb_le in L8.
  injection E as <- <-. change (Z.to_nat 8) with 8. change (Z.to_nat 0) with 0. cbn [skipn].
  assert (Nth : forall k, k < 8 -> nth k (firstn 8 data) 0%Z = nth k data 0%Z).
  { intros k Hk. rewrite <- (firstn_skipn 8 data) at 2. rewrite app_nth1; [reflexivity|]. rewrite firstn_length. lia. }
  unfold header_of. cbn [h_endianess h_length h_command h_typeid h_float]. rewrite !Nth by lia. destruct (Nat.ltb_spec (length data) 8); [lia|].
  destruct (Z.eqb_spec (nth 5 data 0%Z) 1); cbn [negb]; [|reflexivity].
  destruct (Z.ltb_spec 8 (nth 1 data 0%Z)); [reflexivity|].
  destruct (Z.ltb_spec 8 (nth 3 data 0%Z)); [reflexivity|].
  destruct (Z.ltb_spec 8 (nth 4 data 0%Z)); [reflexivity|].
  destruct (Z.eqb_spec (nth 6 data 0%Z) 0); cbn [negb]; [|reflexivity].
  exfalso. destruct B as [B|[B|[B|[B|[B|B]]]]]; lia.
Qed.

Lemma parse_files_app fuel : forall a dir i b, parse_files fuel dir i (a ++ b) =
  do '(d1, h1, e1) <- parse_files fuel dir i a;
  do '(d2, h2, e2) <- parse_files fuel d1 (i + Z.of_nat (length a))%Z b; OK (d2, h1 ++ h2, e1 ++ e2).
Proof.
  induction a as [|[nm d] a IH]; intros dir i b; cbn [parse_files app length].
  - cbn [bind]. replace (i + Z.of_nat 0)%Z with i by lia. destruct (parse_files fuel dir i b) as [[[d2 h2] e2]| |]; reflexivity.
  - destruct (parse_file fuel dir i d) as [[dir1 err]| |]; [|reflexivity|reflexivity]. cbn [bind]. rewrite IH.
    replace (i + 1 + Z.of_nat (length a))%Z with (i + Z.of_nat (S (length a)))%Z by lia.
    destruct (parse_files fuel dir1 (i + 1) a) as [[[d1 h1] e1]| |]; [|reflexivity|reflexivity]. cbn [bind].
    destruct err; cbn [bind].
    + destruct (parse_files fuel d1 _ b) as [[[d2 h2] e2]| |]; reflexivity.
    + destruct (parse_files fuel d1 _ b) as [[[d2 h2] e2]| |]; reflexivity.
Qed.

(** the errors of rejected files: one per file, starting with its name *)

Lemma parse_files_rejected fuel : forall l dir i, Forall (fun x => rejected (snd x)) l ->
  exists errs, parse_files fuel dir i l = OK (dir, repeat None (length l), errs) /\ Forall2 names_it l errs.
Proof.
  induction l as [|[nm d] l IH]; intros dir i F; [exists []; split; [reflexivity|constructor]|].
  inversion F as [|? ? F1 F2]; subst. cbn [parse_files]. rewrite (parse_rejected fuel dir i d F1). cbn [bind].
  destruct (IH dir (i + 1)%Z F2) as (errs & -> & Fe). cbn [bind length repeat]. eexists. split; [reflexivity|]. constructor; [|exact Fe]. reflexivity.
Qed.

Lemma alive_repeat n : alive (repeat None n) = 0.
Proof. induction n; cbn; auto. Qed.

Lemma nth_error_same {A} : forall (a b : list A), (forall k, nth_error a k = nth_error b k) -> a = b.
Proof.
  induction a as [|x a IH]; intros [|y b] H; [reflexivity|specialize (H 0); discriminate|specialize (H 0); discriminate|].
  f_equal; [specialize (H 0); cbn in H; congruence|]. apply IH. intros k. exact (H (S k)).
Qed.

Lemma cleanup_rejected_last (l : list disk) n : cleanup (S (2 * length (map Some l ++ repeat None n))) (map Some l ++ repeat None n) 0 = OK (map Some l).
Proof.
  destruct (cleanup_spec (S (2 * length (map Some l ++ repeat None n))) [] (map Some l ++ repeat None n)) as (r & E & L & Al & N); [intros ? []|lia|].
  cbn [app length] in *. rewrite E. f_equal. rewrite alive_app, alive_repeat, Nat.add_0_r in L.
  rewrite alive_all in L by (intros x I; apply in_map_iff in I as (? & <- & _); discriminate). cbn [Nat.add] in L.
  apply nth_error_same. intros k. rewrite map_length in L. destruct (le_lt_dec (length l) k) as [B|B].
  - rewrite !(proj2 (nth_error_None _ _)); [reflexivity|rewrite map_length; lia|lia].
  - destruct (nth_error l k) as [d|] eqn:Ed; [|apply nth_error_None in Ed; lia].
    rewrite (N k d); [|rewrite nth_error_app1, nth_error_map, Ed by (rewrite map_length; lia); reflexivity|lia].
    rewrite nth_error_map, Ed. reflexivity.
Qed.

Lemma open_sim2 pattern files bad fuel : files <> [] -> length files <= 256 -> Forall file_ok files -> no_clash files ->
  Forall (fun f => length (encode (fst (snd f)) (snd (snd f))) < fuel) files -> Forall (fun x => rejected (snd x)) bad ->
  exists b ops errs, binout_open fuel pattern (map on_disk files ++ bad) = OK b /\
    b_error b = open_error errs /\ Forall2 names_it bad errs /\ b_files b = map (fun f => Some (snd (on_disk f))) files /\
    denotes ops (b_dir b) /\ history_ok ops /\ folder_paths ops = nonroot (all_visited files) /\ Forall2 (rel_files (b_files b)) (records [] ops) (all_stored files).
Proof.
  intros Ne L Fo Nc Fu Rj.
  set (Q := map fst (all_stored files)). set (V := all_visited files).
  assert (Sp : separate Q V).
  { intros q p Iq Ip. unfold Q in Iq. apply in_map_iff in Iq as ([q' v] & <- & Iq). exact (Nc q' v p Iq Ip). }
  destruct (parse_files_sim Q V files [] [] [] fuel L Fo Sp Fu denotes_nil) as (dir & ops & E & D & C & Vf & R); auto.
  { apply covers_nil. }
  { intros q v I. unfold Q. apply in_map_iff. exists (q, v). auto. }
  { constructor. }
  change (Z.of_nat (length (@nil bfile))) with 0%Z in E.
  destruct (parse_files_rejected fuel bad dir (0 + Z.of_nat (length (map on_disk files)))%Z Rj) as (errs & Eb & Fb).
  assert (Eo : binout_open fuel pattern (map on_disk files ++ bad) =
    do '(dir, handles, errs) <- parse_files fuel [] 0 (map on_disk files ++ bad);
    do handles <- cleanup (S (2 * length handles)) handles 0;
    OK {| b_dir := dir; b_files := handles; b_error := open_error errs |}) by (destruct files; [congruence|reflexivity]).
  rewrite Eo, parse_files_app, E. cbn [bind]. rewrite Eb. cbn [bind].
  cbn [app] in R.
  replace (map (fun f => Some (snd (on_disk f))) files) with (map Some (map (fun f => snd (on_disk f)) files)) in * by (rewrite map_map; reflexivity).
  rewrite cleanup_rejected_last. cbn [bind].
  eexists. exists ops, errs. split; [reflexivity|]. cbn [b_error b_files b_dir app]. split; [reflexivity|]. split; [exact Fb|]. split; [reflexivity|].
  split; [exact D|]. split; [|split; [exact Vf|exact R]]. pose proof (separate_noclash _ _ _ C Sp). destruct C as (_ & C3 & C4 & C5). split; [exact C3|]. split; [exact C4|]. split; [exact C5|assumption].
Qed.

Lemma files_small files x a p : Forall file_ok files ->
  nth_error (map (fun f => Some (snd (on_disk f))) files) x = Some (Some (Content (a ++ p))) -> (Z.of_nat (length a) < 2 ^ 63)%Z.
Proof.
  intros F H. rewrite nth_error_map in H. destruct (nth_error files x) as [[nm [f rs]]|] eqn:E; [|discriminate]. cbn [option_map on_disk fst snd] in H. injection H as H.
  apply nth_error_In in E. rewrite Forall_forall in F. destruct (F _ E) as (_ & _ & _ & L). cbn [fst snd] in L. rewrite H, app_length in L. lia.
Qed.
