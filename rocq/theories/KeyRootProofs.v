(** * The root folder of a parse (key.c:217-232) *)
From Verif Require Import CBase CBaseFacts StringModel StringProofs PathModel PathSpec PathProofs KeyParseModel.

Lemma move_up_cut s : is_cstr s -> absolute s -> elements s <> [] ->
  exists k r, path_move_up s = OK (Some k) /\ s = firstn (k + 1) s ++ r /\ r <> [] /\ length (firstn (k + 1) s) = k + 1 /\
    absolute (firstn (k + 1) s) /\ elements (firstn (k + 1) s) = removelast (elements s).
Proof.
  intros Hc Ha He. destruct (absolute_shape s Ha He) as (h0 & sp & e & tr & Hsh).
  pose proof (move_up_shape s h0 sp e tr Hc Hsh) as E. destruct Hsh as [Es Hh0 Hsp Hspne He' Hene Htr].
  destruct sp as [|x sp]; [congruence|].
  assert (x = SEP) as ->.
  { unfold seps in Hsp. cbn in Hsp. apply andb_prop in Hsp. destruct Hsp as [Hx _]. apply Z.eqb_eq in Hx. assumption. }
  assert (Hsp2 : seps sp) by (unfold seps in *; cbn in Hsp; exact Hsp).
  assert (Ef : firstn (length h0 + 1) s = h0 ++ [SEP]).
  { rewrite Es. change (h0 ++ (SEP :: sp) ++ e ++ tr) with (h0 ++ [SEP] ++ sp ++ e ++ tr). rewrite app_assoc.
    replace (length h0 + 1) with (length (h0 ++ [SEP])) by (rewrite app_length; reflexivity). apply firstn_app_exact. }
  assert (Hel : elements s = elements h0 ++ [e]).
  { rewrite Es, elements_app_mid by (assumption || discriminate). rewrite elements_app_seps by assumption.
    rewrite (elements_nosep e) by assumption. reflexivity. }
  exists (length h0), (sp ++ e ++ tr). rewrite Ef, Hel, removelast_app_one.
  split; [exact E|]. split; [rewrite Es, <- app_assoc; reflexivity|].
  split; [destruct sp, e; try discriminate; congruence|]. split; [rewrite app_length; reflexivity|].
  split.
  - destruct Hh0 as [->|[[t ->] _]]; [exists []; reflexivity|exists (t ++ [SEP]); reflexivity].
  - apply elements_app_seps. reflexivity.
Qed.

Lemma nonzero_cstr s : is_cstr s -> Forall (fun b => b <> 0%Z) s.
Proof. apply Forall_impl. intros a H. lia. Qed.

Lemma Forall_firstn' {A} (P : A -> Prop) n l : Forall P l -> Forall P (firstn n l).
Proof. intros H. rewrite <- (firstn_skipn n l) in H. apply Forall_app in H. tauto. Qed.

Lemma scan_back_ok s p : forall i, i <= length s -> exists j, scan_back s p i = OK j /\ j <= i.
Proof.
  induction i as [|i IH]; intros H; cbn [scan_back].
  - rewrite cget_nth0 by lia. cbn [bind]. destruct (p _); eexists; split; try reflexivity; lia.
  - rewrite cget_nth0 by lia. cbn [bind]. destruct (p _); [|eexists; split; [reflexivity|lia]].
    destruct (IH ltac:(lia)) as (j & E & L). exists j. split; [exact E|lia].
Qed.

(** a relative path: [path_move_up] is defined, and [None] only for one element *)
Lemma move_up_relative s : is_cstr s -> relative s ->
  exists r, path_move_up s = OK r /\ (r = None -> removelast (elements s) = []).
Proof.
  intros Hc (c0 & t0 & E0 & Hc0). unfold path_move_up.
  destruct (strip_end not_sep s) as (a & b & Es & Hb & Ha).
  destruct Ha as [->|(q & z & -> & Hz)].
  - cbn [app] in Es. subst b. rewrite last_sep_none by assumption. exists None. split; [reflexivity|]. intros _.
    rewrite elements_nosep by (try assumption; rewrite E0; discriminate). reflexivity.
  - assert (z = SEP) as -> by (unfold not_sep in Hz; destruct (Z.eqb_spec z SEP); [assumption|discriminate]).
    assert (EL : last_sep s 0 None = Some (length q)).
    { rewrite Es, <- app_assoc. cbn [app]. apply last_sep_at. assumption. }
    rewrite EL.
    assert (Ls : length s = length q + 1 + length b) by (rewrite Es, !app_length; reflexivity).
    rewrite cget_nth0 by lia. cbn [bind].
    destruct (Z.eqb_spec (nth (length q + 1) s 0%Z) NUL) as [En|En].
    + assert (b = []) as ->.
      { destruct b as [|y b]; [reflexivity|]. exfalso. cbn [length] in Ls.
        assert (G : In (nth (length q + 1) s 0%Z) s) by (apply nth_In; lia).
        unfold is_cstr in Hc. rewrite Forall_forall in Hc. specialize (Hc _ G). unfold NUL in En. lia. }
      rewrite app_nil_r in Es.
      destruct (strip_end is_sep s) as (u & v & Eu & Hv & Hu).
      destruct Hu as [->|(u' & y & -> & Hy)].
      { exfalso. cbn [app] in Eu. subst v. rewrite E0 in Hv. cbn in Hv. apply andb_prop in Hv as [Hv _].
        unfold is_sep in Hv. apply Z.eqb_eq in Hv. contradiction. }
      assert (Hvne : v <> []).
      { intros ->. rewrite app_nil_r in Eu. rewrite Es in Eu. apply app_inj_tail in Eu as [_ <-]. discriminate. }
      assert (Elen : length s = length (u' ++ [y]) + length v) by (rewrite Eu at 1; apply app_length).
      rewrite (scan_back_run s (u' ++ [y]) v [] is_sep).
      * cbn [bind]. rewrite app_length. cbn [length].
        destruct (Nat.eqb_spec (length u' + 1 - 1) 0) as [e|e].
        { exists None. split; [reflexivity|]. intros _. destruct u'; [|cbn in e; lia].
          rewrite Eu, elements_app_seps by assumption. cbn [app].
          rewrite elements_nosep; [reflexivity| |discriminate]. unfold nosep. cbn. rewrite andb_true_r.
          unfold not_sep. unfold is_sep in Hy. rewrite Hy. reflexivity. }
        { destruct (scan_back_ok s not_sep (length u' + 1 - 1)) as (j & -> & Lj).
          { rewrite app_length in Elen. cbn in Elen. lia. }
          cbn [bind]. destruct (scan_back_ok s is_sep j) as (j2 & -> & _).
          { rewrite app_length in Elen. cbn in Elen. lia. }
          cbn [bind]. eexists. split; [reflexivity|]. discriminate. }
      * rewrite app_nil_r. exact Eu.
      * exact Hv.
      * right. exists u', y. auto.
      * exact Hvne.
      * rewrite app_length in *. cbn [length] in *. lia.
    + cbn [bind]. destruct (scan_back_ok s is_sep (length q)) as (j2 & -> & _); [lia|].
      cbn [bind]. eexists. split; [reflexivity|]. discriminate.
Qed.

Lemma key_root_spec w file : is_cstr (w_cwd w) -> absolute (w_cwd w) -> is_cstr file -> file <> [] ->
  elements file <> [] ->
  exists root, key_root w file = OK root /\ absolute root /\ is_cstr root /\
    (absolute file -> elements root = removelast (elements file)) /\
    (relative file -> elements root = elements (w_cwd w) ++ removelast (elements file)).
Proof.
  intros Hw Hwa Hf Hne Hel. unfold key_root.
  destruct file as [|c t]; [contradiction|].
  destruct (Z.eqb_spec c SEP) as [->|n].
  - assert (Ha : absolute (SEP :: t)) by (exists t; reflexivity).
    destruct (move_up_cut _ Hf Ha Hel) as (k & r & E & Es & Hr & Hl & Hab & Helm). rewrite E. cbn [bind].
    change (path_is_abs (SEP :: t)) with (OK true). cbn [bind].
    set (s := SEP :: t) in *.
    rewrite string_clone_len_ok.
    2:{ rewrite app_length. rewrite firstn_length in Hl. lia. }
    cbn [bind]. rewrite firstn_app. rewrite firstn_length in Hl.
    replace (k + 1 - length s) with 0 by lia. rewrite firstn_O, app_nil_r.
    rewrite cstring_at_app by (apply nonzero_cstr, Forall_firstn'; assumption).
    exists (firstn (k + 1) s). split; [reflexivity|]. split; [assumption|]. split; [apply Forall_firstn'; assumption|].
    split; [auto|]. intros (c' & t' & E' & Hc'). unfold s in E'. injection E' as <- _. contradiction.
  - assert (Hr : relative (c :: t)) by (exists c, t; auto).
    assert (Hna : ~ absolute (c :: t)) by (intros [t' E]; injection E as -> _; apply n; reflexivity).
    destruct (move_up_relative _ Hf Hr) as (r & E & Hnone). rewrite E. cbn [bind].
    destruct r as [k|].
    + unfold path_is_abs. rewrite cget_nth0 by (cbn; lia). cbn [nth bind].
      assert (Ei : is_sep c = false) by (unfold is_sep; apply Z.eqb_neq; assumption). rewrite Ei.
      assert (Hwne : w_cwd w <> []) by (destruct Hwa as [u ->]; discriminate).
      destruct (join_spec (w_cwd w) (c :: t) Hw Hf Hwne) as (l1 & l2 & r1 & r2 & EL & ER & H2 & H1 & Hl1 & _ & _ & Hj).
      destruct (join_elements (w_cwd w) (c :: t) Hw Hf Hwne) as (j & Ej & Eel).
      rewrite Ej. cbn [bind]. rewrite Hj in Ej. injection Ej as Ej.
      assert (Hjc : is_cstr j).
      { rewrite <- Ej. rewrite EL in Hw. rewrite ER in Hf. apply Forall_app in Hw as [Hw1 _]. apply Forall_app in Hf as [_ Hf2].
        apply Forall_app. split; [assumption|]. constructor; [unfold SEP; lia|assumption]. }
      assert (Hja : absolute j).
      { rewrite <- Ej. destruct Hwa as [u Eu]. rewrite EL in Eu. destruct l1 as [|x l1]; [congruence|].
        injection Eu as -> _. eexists. reflexivity. }
      assert (Hje : elements j <> []).
      { rewrite Eel. intros X. apply app_eq_nil in X as [_ X]. contradiction. }
      destruct (move_up_cut j Hjc Hja Hje) as (k' & r' & E' & Es' & Hr' & Hl' & Hab' & Hel').
      rewrite E'. cbn [bind].
      destruct r' as [|x r']; [contradiction|].
      assert (Ea : aset (j ++ [NUL]) (k' + 1) NUL = OK (firstn (k' + 1) j ++ NUL :: r' ++ [NUL])).
      { set (F := firstn (k' + 1) j) in *.
        assert (EF : j ++ [NUL] = F ++ x :: (r' ++ [NUL])) by (rewrite app_comm_cons, app_assoc, <- Es'; reflexivity).
        rewrite EF, <- Hl'. apply aset_at. }
      rewrite Ea. cbn [bind]. rewrite cstring_at_app by (apply nonzero_cstr, Forall_firstn'; assumption).
      exists (firstn (k' + 1) j). split; [reflexivity|]. split; [assumption|]. split; [apply Forall_firstn'; assumption|].
      split; [contradiction|]. intros _. rewrite Hel', Eel. apply removelast_app. assumption.
    + exists (w_cwd w). split; [reflexivity|]. split; [assumption|]. split; [assumption|]. split; [contradiction|].
      intros _. rewrite Hnone by reflexivity. rewrite app_nil_r. reflexivity.
Qed.
