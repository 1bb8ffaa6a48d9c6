(** * The parser produces what the file means *)
From Verif Require Import CBase CBaseFacts StringModel StringSpec StringProofs LineModel LineSpec LineProofs
  PathModel PathSpec PathProofs KeyTableModel KeyTableSpec CardSpec KeyParseModel KeyParseSpec KeyParseLow KeyParseAbs.

(** ** names *)
Lemma blanks_drop b l : blanks b -> drop_blanks (b ++ l) = drop_blanks l.
Proof. induction 1 as [|x b -> _ IH]; [reflexivity|]. cbn. exact IH. Qed.

Lemma trim_right_blanks t b : blanks b -> trim_right (t ++ b) = trim_right t.
Proof.
  intros H. revert t. induction b as [|x b IH] using rev_ind; intros t; [rewrite app_nil_r; reflexivity|].
  apply Forall_app in H as [H1 H2]. inversion H2; subst. rewrite app_assoc, trim_right_snoc.
  cbn. apply IH. exact H1.
Qed.

Lemma trimmed_fun f t : trimmed f t -> t = trim_right (drop_blanks f).
Proof.
  intros (b1 & b2 & -> & B1 & B2 & H). rewrite blanks_drop by assumption.
  destruct t as [|c t].
  - cbn [app]. rewrite <- (app_nil_r b2), blanks_drop by assumption. reflexivity.
  - destruct (H ltac:(discriminate)) as [Hh Hl]. cbn [hd] in Hh.
    cbn [app drop_blanks]. destruct (Z.eqb_spec c SPACE); [contradiction|].
    change (c :: t ++ b2) with ((c :: t) ++ b2). rewrite trim_right_blanks by assumption.
    destruct (exists_last (l := c :: t)) as (u & z & E); [discriminate|]. rewrite E in *.
    rewrite last_last in Hl. rewrite trim_right_snoc. destruct (Z.eqb_spec z SPACE); [contradiction|reflexivity].
Qed.

Lemma drop_app_nonblank p x : ~ blanks p -> drop_blanks (p ++ x) = drop_blanks p ++ x /\
  exists c t, drop_blanks p = c :: t /\ c <> SPACE.
Proof.
  induction p as [|c p IH]; intros H; [exfalso; apply H; constructor|].
  cbn [app drop_blanks]. destruct (Z.eqb_spec c SPACE) as [->|n].
  - apply IH. intros B. apply H. constructor; [reflexivity|assumption].
  - split; [reflexivity|]. eauto.
Qed.

Lemma nodollar l : ~ In DOLLAR l -> has_dollar l = false.
Proof.
  intros H. unfold has_dollar. destruct (existsb _ l) eqn:E; [|reflexivity].
  apply existsb_exists in E as (x & Hx & Hd). apply Z.eqb_eq in Hd. subst. contradiction.
Qed.

Section A2.
Variable inc : recursion -> cstr -> option (list item * recursion).
Variable cfg : key_config.
Variable w : world.
Variable file : cstr.

Fixpoint acards (ls : list (list Z)) (a : astate) : option astate :=
  match ls with
  | [] => Some a
  | l :: t => opt a <- acard inc cfg w file a l; acards t a
  end.

Lemma acards_app l1 : forall l2 a, acards (l1 ++ l2) a = opt a <- acards l1 a; acards l2 a.
Proof.
  induction l1 as [|l l1 IH]; intros l2 a; [reflexivity|]. cbn [app acards].
  destruct (acard inc cfg w file a l); [apply IH|reflexivity].
Qed.

Definition mk (n : cstr) (k : nat) (m : option (list Z)) (r : recursion) (log : list item) : astate :=
  {| a_name := n; a_card := k; a_multi := m; a_rec := r; a_log := log |}.

(** One name: a group of lines leads to the continuation [K]. *)
Section Group.
Variables (n : cstr) (k : nat) (r : recursion) (log : list item).
Variable K : cstr -> option astate.
Hypothesis step : forall acc l, has_dollar l = false ->
  acard inc cfg w file (mk n k acc r log) l =
  match amulti acc l with
  | None => None
  | Some (inl p) => Some (mk n k (Some p) r log)
  | Some (inr nm) => K nm
  end.

Lemma group_tail parts : forall w0 final,
  w0 <> [] -> Forall (fun p => ~ In DOLLAR (p ++ [SPACE; PLUS])) parts -> ~ In DOLLAR final ->
  ~ continued (w0 ++ concat parts ++ final) -> 2 <= length (w0 ++ concat parts ++ final) ->
  acards (map (fun p => p ++ [SPACE; PLUS]) parts ++ [final]) (mk n k (Some w0) r log) =
  K (trim_right (w0 ++ concat parts ++ final)).
Proof.
  induction parts as [|p parts IH]; intros w0 final Hw Hp Hf Hc Hlen; cbn [map app concat acards] in *.
  - rewrite step by (apply nodollar; assumption). unfold amulti.
    destruct (Nat.ltb_spec (length (w0 ++ final)) 2); [lia|].
    destruct (ends_plus (w0 ++ final)) eqn:E; [apply ends_plus_spec in E; contradiction|].
    destruct (K _); reflexivity.
  - inversion Hp as [|? ? H1 H2]; subst. rewrite step by (apply nodollar; assumption). unfold amulti.
    destruct (Nat.ltb_spec (length (w0 ++ p ++ [SPACE; PLUS])) 2) as [L|_].
    { rewrite !app_length in L. cbn in L. lia. }
    assert (E : ends_plus (w0 ++ p ++ [SPACE; PLUS]) = true) by (apply ends_plus_spec; exists (w0 ++ p); rewrite <- app_assoc; reflexivity).
    rewrite E.
    assert (Ef : firstn (length (w0 ++ p ++ [SPACE; PLUS]) - 2) (w0 ++ p ++ [SPACE; PLUS]) = w0 ++ p).
    { rewrite app_assoc. rewrite (app_length (w0 ++ p)). cbn [length]. rewrite Nat.add_sub. apply firstn_app_exact. }
    rewrite Ef. rewrite IH.
    + rewrite <- !app_assoc. reflexivity.
    + destruct w0; [contradiction|discriminate].
    + assumption.
    + assumption.
    + rewrite <- !app_assoc in Hc. rewrite <- app_assoc. exact Hc.
    + rewrite <- !app_assoc in Hlen. rewrite <- app_assoc. exact Hlen.
Qed.

Lemma group_spec g nm : spells g nm -> spellable g -> acards g (mk n k None r log) = K nm.
Proof.
  intros (parts & final & -> & Hc & Ht) (Hd & Hfirst & Hone).
  apply trimmed_fun in Ht. specialize (Hone parts final eq_refl).
  apply Forall_app in Hd as [Hd1 Hd2]. inversion Hd2 as [|? ? Hf _]; subst.
  destruct parts as [|p parts]; cbn [map app concat acards] in *.
  - rewrite step by (apply nodollar; assumption). unfold amulti.
    destruct (drop_blanks_split final) as (b & E & B & D).
    destruct D as [D|(c & t & D & Hcs)].
    + rewrite D. cbn. destruct (K []); reflexivity.
    + rewrite D in *.
      destruct (Nat.ltb_spec (length (c :: t)) 2) as [L|_].
      { destruct t; [|cbn in L; lia]. exfalso. apply (Hone b c); auto. }
      destruct (ends_plus (c :: t)) eqn:Ep.
      { exfalso. apply ends_plus_spec in Ep as [q Eq]. apply Hc. exists (b ++ q). rewrite E, Eq, app_assoc. reflexivity. }
      destruct (K _); reflexivity.
  - inversion Hd1 as [|? ? Hp1 Hp2']; subst.
    assert (Hp2 : Forall (fun p => ~ In DOLLAR (p ++ [SPACE; PLUS])) parts) by (rewrite Forall_map in Hp2'; exact Hp2').
    assert (Hnb : ~ blanks p).
    { destruct parts as [|p2 parts]; eapply Hfirst; reflexivity. }
    rewrite step by (apply nodollar; assumption). unfold amulti.
    destruct (drop_app_nonblank p [SPACE; PLUS] Hnb) as [E1 (c & t & Ec & Hcs)]. rewrite E1, Ec. cbn [app].
    destruct (Nat.ltb_spec (length (c :: t ++ [SPACE; PLUS])) 2) as [L|_].
    { cbn [length] in L. rewrite app_length in L. cbn in L. lia. }
    change (c :: t ++ [SPACE; PLUS]) with ((c :: t) ++ [SPACE; PLUS]).
    assert (E : ends_plus ((c :: t) ++ [SPACE; PLUS]) = true) by (apply ends_plus_spec; eexists; reflexivity).
    rewrite E.
    assert (Ef : firstn (length ((c :: t) ++ [SPACE; PLUS]) - 2) ((c :: t) ++ [SPACE; PLUS]) = c :: t).
    { rewrite (app_length (c :: t)). cbn [length]. rewrite Nat.add_sub. apply (firstn_app_exact (c :: t)). }
    rewrite Ef.
    assert (Edrop : drop_blanks ((p ++ concat parts) ++ final) = (c :: t) ++ concat parts ++ final).
    { rewrite <- app_assoc. destruct (drop_app_nonblank p (concat parts ++ final) Hnb) as [-> _]. rewrite Ec. reflexivity. }
    rewrite Edrop.
    destruct (drop_blanks_split ((p ++ concat parts) ++ final)) as (b & Eb & Bb & _). rewrite Edrop in Eb.
    apply group_tail; auto.
    + discriminate.
    + intros [q Eq]. apply Hc. exists (b ++ q). rewrite Eb, Eq, app_assoc. reflexivity.
    + destruct (Nat.leb_spec 2 (length ((c :: t) ++ concat parts ++ final))) as [|L]; [assumption|].
      exfalso. apply (Hone b c); auto.
      rewrite Eb. f_equal. cbn [app length] in L |- *.
      destruct (t ++ concat parts ++ final); [reflexivity|cbn in L; lia].
Qed.
End Group.

Lemma prefixb_true p n : starts p n -> prefixb p n = true.
Proof. apply prefixb_starts. Qed.
Lemma prefixb_false p n : ~ starts p n -> prefixb p n = false.
Proof. intros H. destruct (prefixb p n) eqn:E; [|reflexivity]. apply prefixb_starts in E. contradiction. Qed.
Lemma same_false a b : a <> b -> same a b = false.
Proof. intros H. destruct (same a b) eqn:E; [|reflexivity]. apply same_eq in E. contradiction. Qed.
Lemma same_refl a : same a a = true.
Proof. apply same_eq. reflexivity. Qed.

Lemma multiscale_other n : starts (bs "INCLUDE_MULTISCALE") n ->
  same n (bs "INCLUDE") = false /\ same n (bs "INCLUDE_BINARY") = false /\ same n (bs "INCLUDE_NASTRAN") = false /\
  same n (bs "INCLUDE_PATH") = false /\ same n (bs "INCLUDE_PATH_RELATIVE") = false.
Proof.
  intros [t ->]. repeat split; apply same_false; intros H; cbn in H; discriminate.
Qed.

Lemma multiscale_include n : starts (bs "INCLUDE_MULTISCALE") n -> starts (bs "INCLUDE") n.
Proof. intros [t ->]. exists (bs "_MULTISCALE" ++ t). reflexivity. Qed.

Lemma plain_step n k r log l : plain n ->
  acard inc cfg w file (mk n k None r log) l = Some (mk n (k + 1) None r (log ++ [Ev (n, Some (text l), Some k)])).
Proof.
  intros H. unfold acard, mk at 1. cbn [a_name].
  destruct H as [H|H].
  - rewrite (prefixb_false _ _ H). reflexivity.
  - rewrite (prefixb_true _ _ (multiscale_include n H)). unfold acard_include. cbn [a_name mk].
    destruct (multiscale_other n H) as (-> & -> & -> & -> & ->). cbn [orb andb].
    rewrite (prefixb_true _ _ H). destruct (parse_includes cfg); reflexivity.
Qed.

Lemma plain_cards n r : forall ls k log, plain n ->
  acards ls (mk n k None r log) = Some (mk n (k + length ls) None r (log ++ map Ev (card_events n k (map text ls)))).
Proof.
  induction ls as [|l ls IH]; intros k log H; cbn [acards length map card_events].
  - rewrite Nat.add_0_r, app_nil_r. reflexivity.
  - rewrite (plain_step n k r log l H). rewrite IH by assumption. rewrite <- app_assoc.
    replace (k + 1 + length ls) with (k + S (length ls)) by lia. rewrite Nat.add_1_r. reflexivity.
Qed.

Definition deliver (n : cstr) (k : nat) (r : recursion) (log : list item) (nm : cstr) : option astate :=
  Some (mk n (k + 1) None r (log ++ [Ev (n, Some nm, Some k)])).

Lemma names_all_include n : all_names n -> starts (bs "INCLUDE") n /\ ~ starts (bs "INCLUDE_MULTISCALE") n.
Proof.
  intros [->|[->| ->]]; (split; [eexists; reflexivity|]); intros [t H]; discriminate.
Qed.

Lemma names_step n k r log : all_names n -> parse_includes cfg = false -> forall acc l, has_dollar l = false ->
  acard inc cfg w file (mk n k acc r log) l =
  match amulti acc l with
  | None => None
  | Some (inl p) => Some (mk n k (Some p) r log)
  | Some (inr nm) => deliver n k r log nm
  end.
Proof.
  intros Hn Hp acc l Hd. destruct (names_all_include n Hn) as [Hs Hm].
  unfold acard. change (a_name (mk n k acc r log)) with n. rewrite (prefixb_true _ _ Hs).
  unfold acard_include. rewrite Hp. change (a_name (mk n k acc r log)) with n. rewrite (prefixb_false _ _ Hm).
  assert (E : (same n (bs "INCLUDE") || same n (bs "INCLUDE_PATH") || same n (bs "INCLUDE_PATH_RELATIVE")) = true).
  { destruct Hn as [->|[->| ->]]; rewrite same_refl, ?orb_true_r; reflexivity. }
  rewrite E. cbn [orb]. unfold amultik. rewrite Hd. change (a_multi (mk n k acc r log)) with acc.
  destruct (amulti acc l) as [[p|nm]|]; reflexivity.
Qed.

Lemma first_step n r log : starts (bs "INCLUDE") n -> ~ plain n -> ~ all_names n ->
  (parse_includes cfg = true -> ~ resolved n) -> forall acc l, has_dollar l = false ->
  acard inc cfg w file (mk n 0 acc r log) l =
  match amulti acc l with
  | None => None
  | Some (inl p) => Some (mk n 0 (Some p) r log)
  | Some (inr nm) => deliver n 0 r log nm
  end.
Proof.
  intros Hs Hpl Han Hres acc l Hd.
  assert (Hm : ~ starts (bs "INCLUDE_MULTISCALE") n) by (intros H; apply Hpl; right; assumption).
  unfold acard. change (a_name (mk n 0 acc r log)) with n. rewrite (prefixb_true _ _ Hs).
  unfold acard_include. change (a_name (mk n 0 acc r log)) with n. rewrite (prefixb_false _ _ Hm).
  change (a_card (mk n 0 acc r log)) with 0. cbn [Nat.eqb]. rewrite orb_true_r.
  assert (E : amultik (mk n 0 acc r log) l (fun p => Some (a_setm (mk n 0 acc r log) (Some p), None))
     (fun name => Some (a_setm (mk n 0 acc r log) None, Some name)) =
     match amulti acc l with None => None | Some (inl p) => Some (mk n 0 (Some p) r log, None)
     | Some (inr nm) => Some (mk n 0 None r log, Some nm) end).
  { unfold amultik. rewrite Hd. reflexivity. }
  rewrite E. clear E.
  destruct (parse_includes cfg).
  - specialize (Hres eq_refl). unfold resolved, all_names in Hres.
    rewrite !same_false by tauto. cbn [orb andb].
    destruct (amulti acc l) as [[p|nm]|]; reflexivity.
  - destruct (amulti acc l) as [[p|nm]|]; reflexivity.
Qed.

Lemma later_step n k r log l : k <> 0 -> starts (bs "INCLUDE") n -> ~ plain n -> ~ all_names n ->
  (parse_includes cfg = true -> ~ resolved n) ->
  acard inc cfg w file (mk n k None r log) l = deliver n k r log (text l).
Proof.
  intros Hk Hs Hpl Han Hres.
  assert (Hm : ~ starts (bs "INCLUDE_MULTISCALE") n) by (intros H; apply Hpl; right; assumption).
  unfold acard. change (a_name (mk n k None r log)) with n. rewrite (prefixb_true _ _ Hs).
  unfold acard_include. change (a_name (mk n k None r log)) with n. rewrite (prefixb_false _ _ Hm).
  change (a_card (mk n k None r log)) with k. destruct (Nat.eqb_spec k 0); [contradiction|].
  rewrite !andb_false_r, !orb_false_r.
  unfold all_names in Han. rewrite (same_false n (bs "INCLUDE")), (same_false n (bs "INCLUDE_PATH")), (same_false n (bs "INCLUDE_PATH_RELATIVE")) by tauto.
  destruct (parse_includes cfg).
  - specialize (Hres eq_refl). unfold resolved, all_names in Hres. rewrite !same_false by tauto. reflexivity.
  - reflexivity.
Qed.

Lemma later_cards n r : starts (bs "INCLUDE") n -> ~ plain n -> ~ all_names n ->
  (parse_includes cfg = true -> ~ resolved n) -> forall ls k log, k <> 0 ->
  acards ls (mk n k None r log) = Some (mk n (k + length ls) None r (log ++ map Ev (card_events n k (map text ls)))).
Proof.
  intros Hs Hpl Han Hres. induction ls as [|l ls IH]; intros k log H; cbn [acards length map card_events].
  - rewrite Nat.add_0_r, app_nil_r. reflexivity.
  - rewrite (later_step n k r log l) by assumption. unfold deliver. rewrite IH by lia. rewrite <- app_assoc.
    replace (k + 1 + length ls) with (k + S (length ls)) by lia. rewrite Nat.add_1_r. reflexivity.
Qed.

Lemma names_cards n r : all_names n -> parse_includes cfg = false -> forall groups ns k log,
  Forall2 spells groups ns -> Forall spellable groups ->
  acards (concat groups) (mk n k None r log) = Some (mk n (k + length ns) None r (log ++ map Ev (card_events n k ns))).
Proof.
  intros Hn Hp groups. induction groups as [|g groups IH]; intros ns k log H1 H2.
  - inversion H1; subst. cbn. rewrite Nat.add_0_r, app_nil_r. reflexivity.
  - inversion H1 as [|? nm ? ns' Hs Hr]; subst. inversion H2 as [|? ? Hs2 Hr2]; subst. cbn [concat].
    rewrite acards_app. rewrite (group_spec n k r log _ (names_step n k r log Hn Hp) g nm Hs Hs2).
    unfold deliver. rewrite (IH ns' (k + 1) _ Hr Hr2). rewrite <- app_assoc. cbn [length card_events map app].
    replace (k + 1 + length ns') with (k + S (length ns')) by lia. rewrite Nat.add_1_r. reflexivity.
Qed.

Lemma delivers_spec n r ls cards log : delivers n ls cards -> (parse_includes cfg = true -> ~ resolved n) ->
  exists k, acards ls (mk n 0 None r log) = Some (mk n k None r (log ++ map Ev (card_events n 0 cards))) /\
    (ls <> [] -> k <> 0).
Proof.
  intros H Hres. inversion H as [ls' Hpl|ls' ns Han (groups & -> & Hg1 & Hg2)|g m ls' Hs Hpl Han Hsp Hsb]; subst.
  - eexists. split; [apply plain_cards; assumption|]. intros Hne. destruct ls; [contradiction|]. cbn. lia.
  - assert (Hp : parse_includes cfg = false).
    { destruct (parse_includes cfg); [|reflexivity]. exfalso. apply (Hres eq_refl). left. assumption. }
    eexists. split; [apply (names_cards n r Han Hp groups); assumption|].
    intros Hne. inversion Hg1; subst; [contradiction|]. cbn. lia.
  - rewrite acards_app. rewrite (group_spec n 0 r log _ (first_step n r log Hs Hpl Han Hres) g m Hsp Hsb).
    unfold deliver. rewrite (later_cards n r Hs Hpl Han Hres) by lia.
    exists (0 + 1 + length ls'). split; [|intros _; lia]. cbn [card_events map]. rewrite <- app_assoc. reflexivity.
Qed.

(** ** includes *)
Lemma amessage_mk n k r log nm m : printable file nm ->
  amessage (mk n k None r log) file nm m = Some (mk n k None r (log ++ [m])).
Proof. intros H. unfold amessage, printable in *. destruct (Nat.leb_spec (length file + length nm) 900); [reflexivity|lia]. Qed.

Lemma include_K_step n k r log : parse_includes cfg = true ->
  n = bs "INCLUDE" \/ ((n = bs "INCLUDE_BINARY" \/ n = bs "INCLUDE_NASTRAN") /\ k = 0) ->
  forall acc l, has_dollar l = false ->
  acard inc cfg w file (mk n k acc r log) l =
  match amulti acc l with
  | None => None
  | Some (inl p) => Some (mk n k (Some p) r log)
  | Some (inr nm) => ainclude inc cfg w file (mk n k None r log) nm
  end.
Proof.
  intros Hp Hn acc l Hd.
  assert (Hs : prefixb (bs "INCLUDE") n = true).
  { destruct Hn as [->|[[->| ->] _]]; reflexivity. }
  unfold acard. change (a_name (mk n k acc r log)) with n. rewrite Hs.
  unfold acard_include. rewrite Hp. change (a_name (mk n k acc r log)) with n.
  change (a_card (mk n k acc r log)) with k.
  assert (E : (same n (bs "INCLUDE") || (same n (bs "INCLUDE_BINARY") && (k =? 0))
       || (same n (bs "INCLUDE_NASTRAN") && (k =? 0))) = true).
  { destruct Hn as [->|[[->| ->] ->]]; rewrite same_refl, ?Nat.eqb_refl; cbn [andb]; rewrite ?orb_true_r; reflexivity. }
  rewrite E. unfold amultik. rewrite Hd. change (a_multi (mk n k acc r log)) with acc.
  change (a_setm (mk n k acc r log) None) with (mk n k None r log).
  destruct (amulti acc l) as [[p|nm]|]; try reflexivity.
  destruct (ainclude inc cfg w file (mk n k None r log) nm) as [a|] eqn:Ea; [|reflexivity].
  reflexivity.
Qed.

Lemma path_K_step k r log : parse_includes cfg = true -> forall acc l, has_dollar l = false ->
  acard inc cfg w file (mk (bs "INCLUDE_PATH") k acc r log) l =
  match amulti acc l with
  | None => None
  | Some (inl p) => Some (mk (bs "INCLUDE_PATH") k (Some p) r log)
  | Some (inr nm) => adir w file (mk (bs "INCLUDE_PATH") k None r log) nm
  end.
Proof.
  intros Hp acc l Hd. unfold acard, acard_include. rewrite Hp.
  change (a_name (mk (bs "INCLUDE_PATH") k acc r log)) with (bs "INCLUDE_PATH").
  change (prefixb (bs "INCLUDE") (bs "INCLUDE_PATH")) with true. cbv iota.
  rewrite same_refl. rewrite !same_false by discriminate. cbn [orb andb].
  unfold amultik. rewrite Hd. change (a_multi (mk (bs "INCLUDE_PATH") k acc r log)) with acc.
  change (a_setm (mk (bs "INCLUDE_PATH") k acc r log) None) with (mk (bs "INCLUDE_PATH") k None r log).
  destruct (amulti acc l) as [[p|nm]|]; try reflexivity.
  destruct (adir w file (mk (bs "INCLUDE_PATH") k None r log) nm); reflexivity.
Qed.

Lemma rel_K_step k r log : parse_includes cfg = true -> forall acc l, has_dollar l = false ->
  acard inc cfg w file (mk (bs "INCLUDE_PATH_RELATIVE") k acc r log) l =
  match amulti acc l with
  | None => None
  | Some (inl p) => Some (mk (bs "INCLUDE_PATH_RELATIVE") k (Some p) r log)
  | Some (inr nm) => opt full <- get (path_join (rc_root r) nm);
                     adir w file (mk (bs "INCLUDE_PATH_RELATIVE") k None r log) full
  end.
Proof.
  intros Hp acc l Hd. unfold acard, acard_include. rewrite Hp.
  change (a_name (mk (bs "INCLUDE_PATH_RELATIVE") k acc r log)) with (bs "INCLUDE_PATH_RELATIVE").
  change (prefixb (bs "INCLUDE") (bs "INCLUDE_PATH_RELATIVE")) with true. cbv iota.
  rewrite same_refl. rewrite !same_false by discriminate. cbn [orb andb].
  unfold amultik. rewrite Hd. change (a_multi (mk (bs "INCLUDE_PATH_RELATIVE") k acc r log)) with acc.
  change (rc_root (a_rec (mk (bs "INCLUDE_PATH_RELATIVE") k acc r log))) with (rc_root r).
  change (a_setm (mk (bs "INCLUDE_PATH_RELATIVE") k acc r log) None) with (mk (bs "INCLUDE_PATH_RELATIVE") k None r log).
  destruct (amulti acc l) as [[p|nm]|]; try reflexivity.
  destruct (path_join (rc_root r) nm) as [full| |]; try reflexivity. cbn [get].
  destruct (adir w file (mk (bs "INCLUDE_PATH_RELATIVE") k None r log) full); reflexivity.
Qed.

Lemma binary_later k r log : parse_includes cfg = true -> length file <= 900 -> forall ls, k <> 0 ->
  acards ls (mk (bs "INCLUDE_BINARY") k None r log) =
  Some (mk (bs "INCLUDE_BINARY") (k + length ls) None r (log ++ map CardCount (seq (k + 1) (length ls)))).
Proof.
  intros Hp Hf ls. revert k log. induction ls as [|l ls IH]; intros k log Hk.
  - cbn. rewrite Nat.add_0_r, app_nil_r. reflexivity.
  - cbn [acards].
    assert (E : acard inc cfg w file (mk (bs "INCLUDE_BINARY") k None r log) l =
      Some (mk (bs "INCLUDE_BINARY") (k + 1) None r (log ++ [CardCount (k + 1)]))).
    { unfold acard, acard_include. rewrite Hp. change (a_name (mk (bs "INCLUDE_BINARY") k None r log)) with (bs "INCLUDE_BINARY").
      change (a_card (mk (bs "INCLUDE_BINARY") k None r log)) with k.
      change (prefixb (bs "INCLUDE") (bs "INCLUDE_BINARY")) with true. cbv iota.
      rewrite same_refl. rewrite !same_false by discriminate. destruct (Nat.eqb_spec k 0); [contradiction|]. cbn [orb andb].
      rewrite amessage_mk by (unfold printable; cbn [length]; lia). reflexivity. }
    rewrite E, IH by lia. cbn [length seq map]. rewrite <- app_assoc.
    replace (k + 1 + length ls) with (k + S (length ls)) by lia. rewrite !Nat.add_1_r. reflexivity.
Qed.

Lemma nastran_later k r log : parse_includes cfg = true -> length file <= 900 -> forall ls, 2 <= k ->
  acards ls (mk (bs "INCLUDE_NASTRAN") k None r log) =
  Some (mk (bs "INCLUDE_NASTRAN") (k + length ls) None r (log ++ map CardCount (seq (k + 1) (length ls)))).
Proof.
  intros Hp Hf ls. revert k log. induction ls as [|l ls IH]; intros k log Hk.
  - cbn. rewrite Nat.add_0_r, app_nil_r. reflexivity.
  - cbn [acards].
    assert (E : acard inc cfg w file (mk (bs "INCLUDE_NASTRAN") k None r log) l =
      Some (mk (bs "INCLUDE_NASTRAN") (k + 1) None r (log ++ [CardCount (k + 1)]))).
    { unfold acard, acard_include. rewrite Hp. change (a_name (mk (bs "INCLUDE_NASTRAN") k None r log)) with (bs "INCLUDE_NASTRAN").
      change (a_card (mk (bs "INCLUDE_NASTRAN") k None r log)) with k.
      change (prefixb (bs "INCLUDE") (bs "INCLUDE_NASTRAN")) with true. cbv iota.
      rewrite same_refl. rewrite !same_false by discriminate. destruct (Nat.eqb_spec k 0); [lia|]. destruct (Nat.eqb_spec k 1); [lia|]. cbn [orb andb].
      rewrite amessage_mk by (unfold printable; cbn [length]; lia). reflexivity. }
    rewrite E, IH by lia. cbn [length seq map]. rewrite <- app_assoc.
    replace (k + 1 + length ls) with (k + S (length ls)) by lia. rewrite !Nat.add_1_r. reflexivity.
Qed.

Lemma nastran_cards r log : parse_includes cfg = true -> length file <= 900 -> forall ls,
  acards ls (mk (bs "INCLUDE_NASTRAN") 1 None r log) =
  Some (mk (bs "INCLUDE_NASTRAN") (1 + length ls) None r (log ++ map CardCount (seq 3 (length ls - 1)))).
Proof.
  intros Hp Hf [|l ls].
  - cbn. rewrite app_nil_r. reflexivity.
  - cbn [acards].
    assert (E : acard inc cfg w file (mk (bs "INCLUDE_NASTRAN") 1 None r log) l =
      Some (mk (bs "INCLUDE_NASTRAN") 2 None r log)).
    { unfold acard, acard_include. rewrite Hp. change (a_name (mk (bs "INCLUDE_NASTRAN") 1 None r log)) with (bs "INCLUDE_NASTRAN").
      change (a_card (mk (bs "INCLUDE_NASTRAN") 1 None r log)) with 1.
      change (prefixb (bs "INCLUDE") (bs "INCLUDE_NASTRAN")) with true. cbv iota.
      rewrite same_refl. rewrite !same_false by discriminate. reflexivity. }
    rewrite E, nastran_later by (auto; lia). cbn [length Nat.sub]. rewrite Nat.sub_0_r. reflexivity.
Qed.

Lemma adir_mk n k r log d : printable file d ->
  adir w file (mk n k None r log) d =
  Some (if w_dir w d then mk n (k + 1) None (add_path r d) log else mk n (k + 1) None r (log ++ [PathNotFound d])).
Proof.
  intros H. unfold adir. destruct (w_dir w d); [reflexivity|]. rewrite amessage_mk by assumption. reflexivity.
Qed.

Fixpoint ainc_names (ns : list cstr) (a : astate) : option astate :=
  match ns with
  | [] => Some a
  | n :: t => opt a <- ainclude inc cfg w file a n; ainc_names t a
  end.

Lemma ainclude_mk n k r log nm a : ainclude inc cfg w file (mk n k None r log) nm = Some a ->
  exists r' log', a = mk n (k + 1) None r' log'.
Proof.
  unfold ainclude. destruct (get _) as [full|]; [|discriminate]. destruct full as [f|].
  - destruct (inc _ f) as [[l r']|]; [|discriminate]. intros H. injection H as <-. eexists _, _. reflexivity.
  - unfold amessage. destruct (_ <=? _); [|discriminate]. intros H. injection H as <-. eexists _, _. reflexivity.
Qed.

Lemma include_cards : parse_includes cfg = true -> forall groups ns k r log,
  Forall2 spells groups ns -> Forall spellable groups ->
  acards (concat groups) (mk (bs "INCLUDE") k None r log) = ainc_names ns (mk (bs "INCLUDE") k None r log).
Proof.
  intros Hp groups. induction groups as [|g groups IH]; intros ns k r log H1 H2.
  - inversion H1; subst. reflexivity.
  - inversion H1 as [|? nm ? ns' Hs Hr]; subst. inversion H2 as [|? ? Hs2 Hr2]; subst. cbn [concat].
    rewrite acards_app. rewrite (group_spec _ k r log _ (include_K_step (bs "INCLUDE") k r log Hp (or_introl eq_refl)) g nm Hs Hs2).
    cbn [ainc_names]. destruct (ainclude inc cfg w file _ nm) as [a|] eqn:Ea; [|reflexivity].
    destruct (ainclude_mk _ _ _ _ _ _ Ea) as (r' & log' & ->). apply IH; assumption.
Qed.

Lemma first_include n r log g nm : parse_includes cfg = true -> n = bs "INCLUDE_BINARY" \/ n = bs "INCLUDE_NASTRAN" ->
  spells g nm -> spellable g -> acards g (mk n 0 None r log) = ainc_names [nm] (mk n 0 None r log).
Proof.
  intros Hp Hn Hs Hs2.
  rewrite (group_spec n 0 r log _ (include_K_step n 0 r log Hp (or_intror (conj Hn eq_refl))) g nm Hs Hs2).
  cbn [ainc_names]. destruct (ainclude _ _ _ _ _ nm); reflexivity.
Qed.

Definition mkr (root : cstr) (paths : list cstr) : recursion :=
  {| rc_paths := paths; rc_root := root; rc_applied := true |}.

Lemma path_cards root : parse_includes cfg = true -> forall groups ns k paths log,
  Forall2 spells groups ns -> Forall spellable groups -> Forall (printable file) ns ->
  acards (concat groups) (mk (bs "INCLUDE_PATH") k None (mkr root paths) log) =
  Some (mk (bs "INCLUDE_PATH") (k + length ns) None (mkr root (paths ++ filter (w_dir w) ns))
     (log ++ map PathNotFound (filter (fun n => negb (w_dir w n)) ns))).
Proof.
  intros Hp groups. induction groups as [|g groups IH]; intros ns k paths log H1 H2 H3.
  - inversion H1; subst. cbn. rewrite Nat.add_0_r, !app_nil_r. reflexivity.
  - inversion H1 as [|? nm ? ns' Hs Hr]; subst. inversion H2 as [|? ? Hs2 Hr2]; subst.
    inversion H3 as [|? ? Hs3 Hr3]; subst. cbn [concat].
    rewrite acards_app. rewrite (group_spec _ k _ log _ (path_K_step k (mkr root paths) log Hp) g nm Hs Hs2).
    rewrite adir_mk by assumption. cbn [filter length]. destruct (w_dir w nm).
    + change (add_path (mkr root paths) nm) with (mkr root (paths ++ [nm])).
      rewrite (IH ns') by assumption. cbn [negb]. rewrite <- app_assoc.
      replace (k + 1 + length ns') with (k + S (length ns')) by lia. reflexivity.
    + rewrite (IH ns') by assumption. cbn [negb map]. rewrite <- app_assoc.
      replace (k + 1 + length ns') with (k + S (length ns')) by lia. reflexivity.
Qed.

Lemma rel_cards root : parse_includes cfg = true -> forall groups ns ds k paths log,
  Forall2 spells groups ns -> Forall spellable groups ->
  Forall2 (fun n d => path_join root n = OK d) ns ds -> Forall (printable file) ds ->
  acards (concat groups) (mk (bs "INCLUDE_PATH_RELATIVE") k None (mkr root paths) log) =
  Some (mk (bs "INCLUDE_PATH_RELATIVE") (k + length ns) None (mkr root (paths ++ filter (w_dir w) ds))
     (log ++ map PathNotFound (filter (fun n => negb (w_dir w n)) ds))).
Proof.
  intros Hp groups. induction groups as [|g groups IH]; intros ns ds k paths log H1 H2 H4 H3.
  - inversion H1; subst. inversion H4; subst. cbn. rewrite Nat.add_0_r, !app_nil_r. reflexivity.
  - inversion H1 as [|? nm ? ns' Hs Hr]; subst. inversion H2 as [|? ? Hs2 Hr2]; subst.
    inversion H4 as [|? d ? ds' Hs4 Hr4]; subst.
    inversion H3 as [|? ? Hs3 Hr3]; subst. cbn [concat].
    rewrite acards_app. rewrite (group_spec _ k _ log _ (rel_K_step k (mkr root paths) log Hp) g nm Hs Hs2).
    change (rc_root (mkr root paths)) with root. rewrite Hs4. cbn [get].
    rewrite adir_mk by assumption. cbn [filter length]. destruct (w_dir w d).
    + change (add_path (mkr root paths) d) with (mkr root (paths ++ [d])).
      rewrite (IH ns' ds') by assumption. cbn [negb]. rewrite <- app_assoc.
      replace (k + 1 + length ns') with (k + S (length ns')) by lia. reflexivity.
    + rewrite (IH ns' ds') by assumption. cbn [negb map]. rewrite <- app_assoc.
      replace (k + 1 + length ns') with (k + S (length ns')) by lia. reflexivity.
Qed.

(** ** from lines to sections *)
Definition close (a : astate) : astate :=
  if negb (length (a_name a) =? 0) && (a_card a =? 0) then a_emit a [Ev (a_name a, None, None)] else a.

Fixpoint ablocks (blocks : list (cstr * list (list Z))) (a : astate) : option astate :=
  match blocks with
  | [] => Some (close a)
  | (n, ls) :: t => opt a <- acards ls (a_setc (a_setn (close a) n) 0); ablocks t a
  end.

Lemma amessage_name a nm m a' : amessage a file nm m = Some a' -> a_name a' = a_name a.
Proof. unfold amessage. destruct (_ <=? _); [|discriminate]. intros H. injection H as <-. reflexivity. Qed.

Lemma amultik_elim {B} a l part k (out : B) : amultik a l part k = Some out ->
  (exists p, part p = Some out) \/ (exists n, k n = Some out).
Proof.
  unfold amultik. destruct (has_dollar l); [discriminate|]. destruct (amulti _ l) as [[p|n]|]; [| |discriminate]; eauto.
Qed.

Lemma ainclude_name a nm a' : ainclude inc cfg w file a nm = Some a' -> a_name a' = a_name a.
Proof.
  unfold ainclude. destruct (get _) as [full|]; [|discriminate]. destruct full as [f|].
  - destruct (inc _ f) as [[l r']|]; [|discriminate]. intros H. injection H as <-. reflexivity.
  - destruct (amessage _ _ _ _) as [a1|] eqn:E; [|discriminate]. intros H. injection H as <-.
    apply amessage_name in E. exact E.
Qed.

Lemma adir_name a nm a' : adir w file a nm = Some a' -> a_name a' = a_name a.
Proof.
  unfold adir. destruct (w_dir w nm).
  - intros H. injection H as <-. reflexivity.
  - destruct (amessage _ _ _ _) as [a1|] eqn:E; [|discriminate]. intros H. injection H as <-.
    apply amessage_name in E. exact E.
Qed.

Lemma acard_name a l a' : acard inc cfg w file a l = Some a' -> a_name a' = a_name a.
Proof.
  unfold acard. intros H.
  assert (X : forall a1 c, acard_include inc cfg w file a l = Some (a1, c) -> a_name a1 = a_name a).
  { clear H. intros a1 c H. unfold acard_include in H.
    assert (F : amultik a l (fun p => Some (a_setm a (Some p), None)) (fun name => Some (a_setm a None, Some name)) = Some (a1, c) -> a_name a1 = a_name a).
    { intros F. apply amultik_elim in F as [[p F]|[p F]]; injection F as <- _; reflexivity. }
    destruct (parse_includes cfg).
    - destruct (_ || _ || _).
      { apply amultik_elim in H as [[p H]|[p H]]; [injection H as <- _; reflexivity|].
        unfold skipped in H. destruct (ainclude _ _ _ _ _ p) eqn:E; [|discriminate]. injection H as <- _.
        apply ainclude_name in E. exact E. }
      destruct (same _ (bs "INCLUDE_PATH")).
      { apply amultik_elim in H as [[p H]|[p H]]; [injection H as <- _; reflexivity|].
        unfold skipped in H. destruct (adir _ _ _ p) eqn:E; [|discriminate]. injection H as <- _.
        apply adir_name in E. exact E. }
      destruct (same _ (bs "INCLUDE_PATH_RELATIVE")).
      { apply amultik_elim in H as [[p H]|[p H]]; [injection H as <- _; reflexivity|].
        destruct (get _) as [d|]; [|discriminate].
        unfold skipped in H. destruct (adir _ _ _ d) eqn:E; [|discriminate]. injection H as <- _.
        apply adir_name in E. exact E. }
      destruct (same _ (bs "INCLUDE_BINARY")).
      { destruct (amessage _ _ _ _) eqn:E; [|discriminate]. injection H as <- _. apply amessage_name in E. exact E. }
      destruct (same _ (bs "INCLUDE_NASTRAN")).
      { destruct (a_card a =? 1); [injection H as <- _; reflexivity|].
        destruct (amessage _ _ _ _) eqn:E; [|discriminate]. injection H as <- _. apply amessage_name in E. exact E. }
      destruct (prefixb _ _); [injection H as <- _; reflexivity|].
      destruct (a_card a =? 0); [exact (F H)|injection H as <- _; reflexivity].
    - destruct (prefixb _ _); [injection H as <- _; reflexivity|].
      destruct (_ || _); [exact (F H)|injection H as <- _; reflexivity]. }
  destruct (prefixb (bs "INCLUDE") (a_name a)).
  - destruct (acard_include inc cfg w file a l) as [[a1 c]|]; [|discriminate]. specialize (X a1 c eq_refl).
    destruct c as [c|]; [|injection H as <-; exact X].
    destruct (a_multi a1); [discriminate|]. injection H as <-. exact X.
  - destruct (a_multi a); [discriminate|]. injection H as <-. reflexivity.
Qed.

Lemma okb_ok l : keyword_line_ok l -> forall n, comment_line l = false -> keyword_of l = Some n ->
  keyword_okb l = true /\ n <> [].
Proof.
  intros H n Hc Hk. destruct (H Hc n Hk) as [Hn Hl]. split; [|exact Hn]. unfold keyword_okb.
  destruct (Nat.ltb_spec (length l) 82); [reflexivity|]. destruct Hl as [|[r ->]]; [lia|reflexivity].
Qed.

Lemma alines_sections : forall ls a pre blocks a3, Forall keyword_line_ok ls -> sections ls = (pre, blocks) ->
  (opt a1 <- acards pre a; ablocks blocks a1) = Some a3 -> a_multi a3 = None ->
  (a_name a3 <> [] \/ a_card a3 <> 0) -> a_name a <> bs "END" ->
  exists a1 a2, alines inc cfg w file ls a = Some a1 /\ afinish a1 = Some a2 /\
    a_log a2 = a_log a3 /\ a_rec a2 = a_rec a3.
Proof.
  induction ls as [|l ls IH]; intros a pre blocks a3 Hok Hs H Hm Hne Hend.
  - injection Hs as <- <-. cbn [acards ablocks] in H. injection H as <-. exists a. cbn [alines].
    unfold afinish, close in *. rewrite (same_false _ _ Hend). cbn [negb]. rewrite andb_true_r.
    destruct (Nat.eqb_spec (length (a_name a)) 0) as [e|e]; cbn [negb andb] in *.
    + destruct (Nat.eqb_spec (a_card a) 0).
      * destruct Hne; [|contradiction]. destruct (a_name a); [contradiction|discriminate].
      * eexists; repeat split.
    + destruct (a_card a =? 0).
      * cbn [a_emit a_multi] in Hm. rewrite Hm. eexists; repeat split.
      * eexists; repeat split.
  - inversion Hok as [|? ? Hl Hok']; subst. cbn [sections] in Hs. cbn [alines]. unfold aline.
    destruct (comment_line l) eqn:Ec; [apply (IH a pre blocks a3); assumption|].
    destruct (keyword_of l) as [n|] eqn:Ek.
    + destruct (okb_ok l Hl n Ec Ek) as [Hokb Hn]. rewrite Hokb. unfold akeyword. fold (close a).
      destruct (same n (bs "END")) eqn:Ee.
      * apply same_eq in Ee. subst n. injection Hs as <- <-. cbn [acards ablocks] in H. injection H as <-.
        eexists _, _. split; [reflexivity|]. unfold afinish. cbn [a_setn a_name a_card].
        rewrite same_refl. cbn [negb]. rewrite andb_false_r. repeat split.
      * injection Hs as <- <-. cbn [acards ablocks] in H.
        apply (IH _ (fst (sections ls)) (snd (sections ls)) a3); auto; [destruct (sections ls); reflexivity|].
        cbn [a_setc a_setn a_name]. intros ->. rewrite same_refl in Ee. discriminate.
    + injection Hs as <- <-. cbn [acards] in H.
      destruct (acard inc cfg w file a l) as [a1|] eqn:Ea; [|discriminate].
      apply (IH a1 (fst (sections ls)) (snd (sections ls)) a3); auto; [destruct (sections ls); reflexivity|].
      rewrite (acard_name _ _ _ Ea). assumption.
Qed.
End A2.

Lemma sections_names ls : Forall keyword_line_ok ls -> Forall (fun b => fst b <> []) (snd (sections ls)).
Proof.
  induction 1 as [|l ls Hl _ IH]; cbn [sections]; [constructor|].
  destruct (comment_line l) eqn:Ec; [assumption|]. destruct (keyword_of l) as [n|] eqn:Ek; [|assumption].
  destruct (same n (bs "END")); [constructor|]. cbn [snd]. constructor; [|assumption].
  destruct (Hl Ec n Ek) as [Hn _]. exact Hn.
Qed.

(** ** paths *)
Lemma elements_some c l : In c l -> c <> SEP -> elements l <> [].
Proof.
  induction l as [|x l IH]; intros H Hc; [contradiction|].
  unfold elements. cbn [split_sep]. destruct (Z.eqb_spec x 47) as [->|n].
  - cbn [filter nonempty]. destruct H as [H|H]; [subst; contradiction|]. apply IH; assumption.
  - destruct (split_sep l); cbn [filter nonempty]; discriminate.
Qed.

Lemma seps_in s c : seps s -> In c s -> c = SEP.
Proof. unfold seps. rewrite forallb_forall. intros H Hi. apply Z.eqb_eq. apply H. assumption. Qed.

Lemma trailing_unique q1 z1 s1 q2 z2 s2 : (q1 ++ [z1]) ++ s1 = (q2 ++ [z2]) ++ s2 -> z1 <> SEP -> z2 <> SEP -> seps s1 -> seps s2 ->
  q1 ++ [z1] = q2 ++ [z2].
Proof.
  intros E N1 N2 S1 S2. apply app_eq_app in E as (l & [[E1 E2]|[E1 E2]]).
  - destruct l as [|x l] using rev_ind; [rewrite app_nil_r in E1; assumption|]. exfalso.
    rewrite app_assoc in E1. apply app_inj_tail in E1 as [_ E1]. apply N1. rewrite E1.
    apply (seps_in s2); [assumption|]. rewrite E2, !in_app_iff. left. right. left. reflexivity.
  - destruct l as [|x l] using rev_ind; [rewrite app_nil_r in E1; symmetry; assumption|]. exfalso.
    rewrite app_assoc in E1. apply app_inj_tail in E1 as [_ E1]. apply N2. rewrite E1.
    apply (seps_in s1); [assumption|]. rewrite E2, !in_app_iff. left. right. left. reflexivity.
Qed.

Lemma leading_unique s1 b1 s2 b2 : s1 ++ b1 = s2 ++ b2 -> seps s1 -> seps s2 ->
  (match b1 with [] => s1 ++ b1 = [] | x :: _ => x <> SEP end) ->
  (match b2 with [] => s1 ++ b1 = [] | x :: _ => x <> SEP end) -> b1 = b2.
Proof.
  intros E S1 S2 N1 N2. pose proof E as E0. apply app_eq_app in E as (l & [[E1 E2]|[E1 E2]]).
  - destruct l as [|x l]; [symmetry; exact E2|]. cbn in E2. subst b2. exfalso. apply N2.
    apply (seps_in s1); [assumption|]. rewrite E1, in_app_iff. right. left. reflexivity.
  - destruct l as [|x l]; [exact E2|]. cbn in E2. subst b1. exfalso. apply N1.
    apply (seps_in s2); [assumption|]. rewrite E1, in_app_iff. right. left. reflexivity.
Qed.

Lemma under_join d n c : under d n c -> path_join d n = OK c.
Proof.
  intros (Hd & Hn & a & tr & b & ld & Ed & En & St & Sl & (q & z & Ea & Hz) & Hb & ->).
  destruct (join_one_sep d n Hd Hn) as (a' & tr' & b' & ld' & Ed' & En' & St' & Sl' & (q' & z' & Ea' & Hz') & Hb' & ->).
  - apply (elements_some z); [|assumption]. rewrite Ed, Ea, !in_app_iff. left. right. left. reflexivity.
  - destruct b as [|x b]; [left; assumption|right]. apply (elements_some x); [|assumption].
    rewrite En, in_app_iff. right. left. reflexivity.
  - rewrite Ed in Ed'. rewrite Ea, Ea' in *. rewrite (trailing_unique _ _ _ _ _ _ Ed') by assumption.
    rewrite En in En', Hb, Hb'. rewrite (leading_unique _ _ _ _ En') by assumption. reflexivity.
Qed.

Lemma find_listed w n c : forall paths, listed w paths n c -> find_include w paths n = OK (Some c).
Proof.
  intros paths (before & p & after & -> & Hu & Hf & Hb).
  induction Hb as [|q before (d & Hd & Hw) _ IH]; cbn [app find_include].
  - rewrite (under_join _ _ _ Hu). cbn [bind]. destruct (w_file w c); [reflexivity|contradiction].
  - rewrite (under_join _ _ _ Hd). cbn [bind]. rewrite Hw. exact IH.
Qed.

Lemma find_unlisted w n paths : unlisted w paths n -> find_include w paths n = OK None.
Proof.
  induction 1 as [|q before (d & Hd & Hw) _ IH]; cbn [find_include]; [reflexivity|].
  rewrite (under_join _ _ _ Hd). cbn [bind]. rewrite Hw. exact IH.
Qed.

(** ** the meaning of files *)
Scheme plays_mut := Minimality for plays Sort Prop
with plays_blocks_mut := Minimality for plays_blocks Sort Prop
with plays_block_mut := Minimality for plays_block Sort Prop
with plays_names_mut := Minimality for plays_names Sort Prop.
Combined Scheme plays_all from plays_mut, plays_blocks_mut, plays_block_mut, plays_names_mut.

Section Main.
Variable cfg : key_config.
Variable w : world.
Variable root : cstr.
Notation R := (mkr root).
Notation inc f := (aparse cfg w f).

Definition P_plays (paths : list cstr) (file : cstr) (out : list item) (paths' : list cstr) : Prop :=
  paths <> [] -> paths' <> [] /\ exists k, forall f, k <= f -> aparse cfg w f (R paths) file = Some (out, R paths').
Definition P_blocks (paths : list cstr) (file : cstr) (blocks : list (cstr * list (list Z))) (out : list item) (paths' : list cstr) : Prop :=
  paths <> [] -> Forall (fun b => fst b <> []) blocks -> paths' <> [] /\
  exists k, forall f, k <= f -> forall a, a_multi a = None -> a_rec a = R paths ->
    (blocks <> [] \/ a_name a <> [] \/ a_card a <> 0) ->
    exists a3, ablocks (inc f) cfg w file blocks a = Some a3 /\ a_log a3 = a_log (close a) ++ out /\
      a_rec a3 = R paths' /\ a_multi a3 = None /\ (a_name a3 <> [] \/ a_card a3 <> 0).
Definition P_block (paths : list cstr) (file n : cstr) (ls : list (list Z)) (out : list item) (paths' : list cstr) : Prop :=
  paths <> [] -> paths' <> [] /\
  exists k, forall f, k <= f -> forall log, exists c o,
    acards (inc f) cfg w file ls (mk n 0 None (R paths) log) = Some (mk n c None (R paths') (log ++ o)) /\
    out = o ++ (if c =? 0 then [Ev (n, None, None)] else []).
Definition P_names (paths : list cstr) (file : cstr) (ns : list cstr) (out : list item) (paths' : list cstr) : Prop :=
  paths <> [] -> paths' <> [] /\
  exists k, forall f, k <= f -> forall n c log,
    ainc_names (inc f) cfg w file ns (mk n c None (R paths) log) = Some (mk n (c + length ns) None (R paths') (log ++ out)).

Lemma close_fields a : a_rec (close a) = a_rec a /\ a_multi (close a) = a_multi a /\ a_name (close a) = a_name a /\ a_card (close a) = a_card a.
Proof. unfold close. destruct (_ && _); repeat split. Qed.

Lemma close_mk n c m r log : n <> [] -> a_log (close (mk n c m r log)) = log ++ (if c =? 0 then [Ev (n, None, None)] else []).
Proof.
  intros H. unfold close. cbn [mk a_name a_card]. destruct (Nat.eqb_spec (length n) 0) as [e|e].
  - destruct n; [contradiction|discriminate].
  - cbn [negb andb]. destruct (c =? 0); [reflexivity|]. cbn. rewrite app_nil_r. reflexivity.
Qed.

Lemma plays_parse :
  (forall paths file out paths', plays cfg w root paths file out paths' -> P_plays paths file out paths') /\
  (forall paths file bl out paths', plays_blocks cfg w root paths file bl out paths' -> P_blocks paths file bl out paths') /\
  (forall paths file n ls out paths', plays_block cfg w root paths file n ls out paths' -> P_block paths file n ls out paths') /\
  (forall paths file ns out paths', plays_names cfg w root paths file ns out paths' -> P_names paths file ns out paths').
Proof.
  apply plays_all; unfold P_plays, P_blocks, P_block, P_names.
  - (* file *)
    intros paths file content pre blocks out paths' Hf Hok Hs Hne _ IH Hp.
    assert (Hnames : Forall (fun b : cstr * list (list Z) => fst b <> []) blocks).
    { pose proof (sections_names _ Hok) as X. rewrite Hs in X. exact X. }
    destruct (IH Hp Hnames) as [Hp' [k Hk]]. split; [exact Hp'|]. exists (S k). intros f Hfk.
    destruct f as [|f]; [lia|]. cbn [aparse]. rewrite Hf.
    assert (Eb : key_begin cfg w (R paths) = R paths) by (unfold key_begin, mkr; cbn; destruct paths; [contradiction|reflexivity]).
    rewrite Eb. clear Eb.
    set (a0 := {| a_name := [] |}).
    assert (Epre : acards (inc f) cfg w file pre a0 = Some (mk [] (length pre) None (R paths) (map Ev (card_events [] 0 (map text pre))))).
    { apply (plain_cards (inc f) cfg w file [] (R paths) pre 0 []). left. intros [t E]. discriminate. }
    destruct (Hk f ltac:(lia) (mk [] (length pre) None (R paths) (map Ev (card_events [] 0 (map text pre)))) eq_refl eq_refl) as (a3 & E3 & L3 & R3 & M3 & N3).
    { destruct Hne as [Hne|Hne]; [right; right; destruct pre; [contradiction|cbn; lia]|left; assumption]. }
    destruct (alines_sections (inc f) cfg w file _ a0 pre blocks a3 Hok Hs) as (a1 & a2 & E1 & E2 & L2 & R2).
    + rewrite Epre. exact E3.
    + exact M3.
    + exact N3.
    + discriminate.
    + rewrite E1, E2, L2, R2, L3, R3. reflexivity.
  - intros paths file Hp _. split; [exact Hp|]. exists 0. intros f _ a Hm Hr Hne. exists (close a).
    destruct (close_fields a) as (C1 & C2 & C3 & C4). rewrite C1, C2, C3, C4.
    split; [reflexivity|]. split; [rewrite app_nil_r; reflexivity|]. split; [exact Hr|]. split; [exact Hm|].
    destruct Hne as [|]; [contradiction|assumption].
  - intros paths file n ls rest o1 p1 o2 p2 _ IH1 _ IH2 Hp Hn. inversion Hn as [|? ? Hn1 Hn2]; subst. cbn [fst] in Hn1.
    destruct (IH1 Hp) as [Hp1 [k1 Hk1]]. destruct (IH2 Hp1 Hn2) as [Hp2 [k2 Hk2]].
    split; [exact Hp2|]. exists (Nat.max k1 k2). intros f Hf a Hm Hr _. cbn [ablocks].
    assert (Ea : a_setc (a_setn (close a) n) 0 = mk n 0 None (R paths) (a_log (close a))).
    { destruct (close_fields a) as (C1 & C2 & C3 & C4). unfold a_setc, a_setn, mk. cbn. rewrite C1, C2, Hm, Hr. reflexivity. }
    rewrite Ea. destruct (Hk1 f ltac:(lia) (a_log (close a))) as (c & o & E1 & Eo). rewrite E1.
    destruct (Hk2 f ltac:(lia) (mk n c None (R p1) (a_log (close a) ++ o)) eq_refl eq_refl) as (a3 & E3 & L3 & R3 & M3 & N3).
    { right. left. exact Hn1. }
    exists a3. split; [exact E3|]. split; [|auto]. rewrite L3, close_mk by assumption.
    rewrite Eo, <- !app_assoc. reflexivity.
  - intros paths file n Hp. split; [exact Hp|]. exists 0. intros f _ log. exists 0, []. rewrite app_nil_r. split; reflexivity.
  - intros paths file n ls cards Hls Hres Hd Hp. split; [exact Hp|]. exists 0. intros f _ log.
    destruct (delivers_spec (inc f) cfg w file n (R paths) ls cards log Hd Hres) as (c & E & Hc).
    exists c, (map Ev (card_events n 0 cards)). split; [exact E|].
    destruct (Nat.eqb_spec c 0); [exfalso; apply Hc; assumption|]. rewrite app_nil_r. reflexivity.
  - intros paths file ls ns out paths' Hls Hpi (groups & -> & Hg1 & Hg2) _ IH Hp.
    destruct (IH Hp) as [Hp' [k Hk]]. split; [exact Hp'|]. exists k. intros f Hf log.
    rewrite (include_cards (inc f) cfg w file Hpi groups ns) by assumption. rewrite Hk by assumption.
    exists (0 + length ns), out. split; [reflexivity|]. inversion Hg1; subst; [contradiction|]. cbn. rewrite app_nil_r. reflexivity.
  - intros paths file g n ls out paths' Hpi Hs Hs2 _ IH Hfile Hp.
    destruct (IH Hp) as [Hp' [k Hk]]. split; [exact Hp'|]. exists k. intros f Hf log.
    rewrite acards_app, (first_include (inc f) cfg w file (bs "INCLUDE_BINARY") (R paths) log g n Hpi (or_introl eq_refl) Hs Hs2).
    rewrite Hk by assumption. rewrite (binary_later (inc f) cfg w file _ _ _ Hpi Hfile ls) by discriminate.
    eexists _, (out ++ map CardCount (seq 2 (length ls))). split; [rewrite app_assoc; reflexivity|]. rewrite app_nil_r. reflexivity.
  - intros paths file g n ls out paths' Hpi Hs Hs2 _ IH Hfile Hp.
    destruct (IH Hp) as [Hp' [k Hk]]. split; [exact Hp'|]. exists k. intros f Hf log.
    rewrite acards_app, (first_include (inc f) cfg w file (bs "INCLUDE_NASTRAN") (R paths) log g n Hpi (or_intror eq_refl) Hs Hs2).
    rewrite Hk by assumption. cbn [length Nat.add]. rewrite (nastran_cards (inc f) cfg w file _ _ Hpi Hfile ls).
    eexists _, (out ++ map CardCount (seq 3 (length ls - 1))). split; [rewrite app_assoc; reflexivity|]. rewrite app_nil_r. reflexivity.
  - intros paths file ls ns Hls Hpi (groups & -> & Hg1 & Hg2) Hpr Hp.
    split; [destruct paths; [contradiction|discriminate]|]. exists 0. intros f _ log.
    rewrite (path_cards (inc f) cfg w file root Hpi groups ns) by assumption.
    eexists _, _. split; [reflexivity|]. inversion Hg1; subst; [contradiction|]. cbn [length Nat.add Nat.eqb]. rewrite app_nil_r. reflexivity.
  - intros paths file ls ns ds Hls Hpi (groups & -> & Hg1 & Hg2) Hu Hpr Hp.
    split; [destruct paths; [contradiction|discriminate]|]. exists 0. intros f _ log.
    assert (Hj : Forall2 (fun n d => path_join root n = OK d) ns ds).
    { clear - Hu. induction Hu; constructor; auto. apply under_join. assumption. }
    rewrite (rel_cards (inc f) cfg w file root Hpi groups ns ds) by assumption.
    eexists _, _. split; [reflexivity|]. inversion Hg1; subst; [contradiction|]. cbn [length Nat.add Nat.eqb]. rewrite app_nil_r. reflexivity.
  - intros paths file Hp. split; [exact Hp|]. exists 0. intros f _ n c log. cbn. rewrite Nat.add_0_r, app_nil_r. reflexivity.
  - intros paths file n ns c o1 p1 o2 p2 Hl _ IH1 _ IH2 Hp. destruct (IH1 Hp) as [Hp1 [k1 Hk1]]. destruct (IH2 Hp1) as [Hp2 [k2 Hk2]].
    split; [exact Hp2|]. exists (Nat.max k1 k2). intros f Hf nm cc log. cbn [ainc_names].
    unfold ainclude. cbn [mk a_rec mkr rc_paths]. fold (R paths). rewrite (find_listed _ _ _ _ Hl). cbn [get].
    change (a_rec (mk nm cc None (R paths) log)) with (R paths).
    rewrite Hk1 by lia.
    change (ainc_names (inc f) cfg w file ns (mk nm (cc + 1) None (R p1) (log ++ o1)) = Some (mk nm (cc + S (length ns)) None (R p2) (log ++ o1 ++ o2))).
    rewrite Hk2 by lia. rewrite <- app_assoc. replace (cc + 1 + length ns) with (cc + S (length ns)) by lia. reflexivity.
  - intros paths file n ns o2 p2 Hu Hpr _ IH2 Hp. destruct (IH2 Hp) as [Hp2 [k2 Hk2]].
    split; [exact Hp2|]. exists k2. intros f Hf nm cc log. cbn [ainc_names].
    unfold ainclude. cbn [mk a_rec mkr rc_paths]. fold (R paths). rewrite (find_unlisted _ _ _ Hu). cbn [get].
    change {| a_name := nm; a_card := cc; a_multi := None; a_rec := R paths; a_log := log |} with (mk nm cc None (R paths) log).
    rewrite amessage_mk by first [exact Hpr | exact (inc f)].
    change (ainc_names (inc f) cfg w file ns (mk nm (cc + 1) None (R paths) (log ++ [missing cfg n])) = Some (mk nm (cc + S (length ns)) None (R p2) (log ++ missing cfg n :: o2))).
    rewrite Hk2 by lia. rewrite <- app_assoc. replace (cc + 1 + length ns) with (cc + S (length ns)) by lia. reflexivity.
Qed.
End Main.

(** ** files without resolved includes, for any handling of includes *)
Section Simple.
Variable inc : recursion -> cstr -> option (list item * recursion).
Variable cfg : key_config.
Variable w : world.
Variable file : cstr.

Lemma simple_blocks : forall blocks outs a, Forall2 block_delivers blocks outs ->
  Forall (fun b => fst b <> []) blocks ->
  (parse_includes cfg = true -> Forall (fun b => ~ resolved (fst b)) blocks) ->
  a_multi a = None -> (blocks <> [] \/ a_name a <> [] \/ a_card a <> 0) ->
  exists a3, ablocks inc cfg w file blocks a = Some a3 /\ a_log a3 = a_log (close a) ++ map Ev (file_events outs) /\
    a_rec a3 = a_rec a /\ a_multi a3 = None /\ (a_name a3 <> [] \/ a_card a3 <> 0).
Proof.
  induction blocks as [|[n ls] blocks IH]; intros outs a H Hn Hr Hm Hne; inversion H as [|? [m cards] ? outs' Hb Hbs]; subst.
  - exists (close a). destruct (close_fields a) as (C1 & C2 & C3 & C4). rewrite C1, C2, C3, C4. cbn. rewrite app_nil_r.
    split; [reflexivity|]. split; [reflexivity|]. split; [reflexivity|]. split; [assumption|].
    destruct Hne as [|]; [contradiction|assumption].
  - inversion Hn as [|? ? Hn1 Hn2]; subst. cbn [fst] in Hn1. destruct Hb as [Hmn Hb]. cbn [fst snd] in *. subst m.
    destruct (close_fields a) as (C1 & C2 & C3 & C4).
    assert (Ea : a_setc (a_setn (close a) n) 0 = mk n 0 None (a_rec a) (a_log (close a))).
    { unfold a_setc, a_setn, mk. cbn. rewrite C1, C2, Hm. reflexivity. }
    assert (X : exists c o, acards inc cfg w file ls (mk n 0 None (a_rec a) (a_log (close a))) =
        Some (mk n c None (a_rec a) (a_log (close a) ++ o)) /\
        map Ev (block_events (n, cards)) = o ++ (if c =? 0 then [Ev (n, None, None)] else [])).
    { destruct Hb as [[-> ->]|[Hls Hd]].
      - exists 0, []. rewrite app_nil_r. split; reflexivity.
      - assert (Hres : parse_includes cfg = true -> ~ resolved n).
        { intros Hp. specialize (Hr Hp). inversion Hr; assumption. }
        destruct (delivers_spec inc cfg w file n (a_rec a) ls cards (a_log (close a)) Hd Hres) as (c & E & Hc).
        exists c, (map Ev (card_events n 0 cards)). split; [exact E|].
        destruct (Nat.eqb_spec c 0); [exfalso; apply Hc; assumption|]. rewrite app_nil_r.
        assert (Hcs : cards <> []).
        { inversion Hd as [ls' Hpl|ls' ns Han (groups & Eg & Hg1 & Hg2)|g m ls' ? ? ? ? ?]; subst.
          - destruct ls; [contradiction|discriminate].
          - intros ->. inversion Hg1; subst. contradiction.
          - discriminate. }
        unfold block_events. cbn [fst snd]. destruct cards; [contradiction|reflexivity]. }
    destruct X as (c & o & E1 & Eo).
    destruct (IH outs' (mk n c None (a_rec a) (a_log (close a) ++ o)) Hbs Hn2) as (a3 & E3 & L3 & R3 & M3 & N3).
    { intros Hp. specialize (Hr Hp). inversion Hr; assumption. }
    { reflexivity. }
    { right. left. exact Hn1. }
    exists a3. cbn [ablocks]. rewrite Ea, E1. split; [exact E3|]. split; [|auto].
    rewrite L3, close_mk by assumption. unfold file_events. cbn [map concat]. rewrite map_app, Eo, <- !app_assoc. reflexivity.
Qed.

Lemma simple_file r ls pre blocks outs : Forall keyword_line_ok ls -> sections ls = (pre, blocks) ->
  pre <> [] \/ blocks <> [] -> Forall2 block_delivers blocks outs ->
  (parse_includes cfg = true -> Forall (fun b => ~ resolved (fst b)) blocks) ->
  exists a a2, alines inc cfg w file ls {| a_name := []; a_card := 0; a_multi := None; a_rec := r; a_log := [] |} = Some a /\
    afinish a = Some a2 /\ a_log a2 = map Ev (card_events [] 0 (map text pre) ++ file_events outs) /\ a_rec a2 = r.
Proof.
  intros Hok Hs Hne Hb Hr.
  assert (Hnames : Forall (fun b : cstr * list (list Z) => fst b <> []) blocks).
  { pose proof (sections_names _ Hok) as X. rewrite Hs in X. exact X. }
  set (a0 := {| a_name := [] |}).
  assert (Epre : acards inc cfg w file pre a0 = Some (mk [] (length pre) None r (map Ev (card_events [] 0 (map text pre))))).
  { apply (plain_cards inc cfg w file [] r pre 0 []). left. intros [t E]. discriminate. }
  destruct (simple_blocks blocks outs (mk [] (length pre) None r (map Ev (card_events [] 0 (map text pre)))) Hb Hnames Hr eq_refl) as (a3 & E3 & L3 & R3 & M3 & N3).
  { destruct Hne as [Hne|Hne]; [right; right; destruct pre; [contradiction|cbn; lia]|left; assumption]. }
  destruct (alines_sections inc cfg w file _ a0 pre blocks a3 Hok Hs) as (a1 & a2 & E1 & E2 & L2 & R2).
  - rewrite Epre. exact E3.
  - exact M3.
  - exact N3.
  - discriminate.
  - exists a1, a2. split; [exact E1|]. split; [exact E2|]. rewrite L2, R2, L3, R3. split; [|reflexivity].
    rewrite map_app. reflexivity.
Qed.
End Simple.
