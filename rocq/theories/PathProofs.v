From Verif Require Import CBase CBaseFacts SearchModel SearchSpec SearchProofs PathModel PathSpec.

Definition nosep (e : list Z) : Prop := forallb not_sep e = true.

(** ** elements *)
Lemma split_sep_cons s : exists e es, split_sep s = e :: es.
Proof.
  destruct s as [|c s]; simpl; [eauto|].
  destruct (c =? 47)%Z; [eauto|]. destruct (split_sep s); eauto.
Qed.

Lemma elements_sep t : elements (SEP :: t) = elements t.
Proof. reflexivity. Qed.

Lemma elements_seps a t : seps a -> elements (a ++ t) = elements t.
Proof.
  unfold seps. induction a as [|x a IH]; simpl; [reflexivity|].
  intros H. apply andb_prop in H. destruct H as [Hx Ha].
  unfold is_sep in Hx. apply Z.eqb_eq in Hx. subst x. rewrite elements_sep. auto.
Qed.

Lemma split_nosep e : nosep e -> split_sep e = [e].
Proof.
  unfold nosep. induction e as [|x e IH]; simpl; [reflexivity|].
  intros H. apply andb_prop in H. destruct H as [Hx Ha]. rewrite (IH Ha).
  unfold not_sep, SEP in Hx. destruct (x =? 47)%Z; [discriminate|reflexivity].
Qed.

Lemma split_nosep_app e t : nosep e -> split_sep (e ++ SEP :: t) = e :: split_sep t.
Proof.
  unfold nosep. induction e as [|x e IH]; simpl; [reflexivity|].
  intros H. apply andb_prop in H. destruct H as [Hx Ha]. rewrite (IH Ha).
  unfold not_sep, SEP in Hx. destruct (x =? 47)%Z; [discriminate|reflexivity].
Qed.

Lemma elements_nosep e : nosep e -> e <> [] -> elements e = [e].
Proof. intros H Hne. unfold elements. rewrite split_nosep by assumption. destruct e; [congruence|reflexivity]. Qed.

Lemma elements_nosep_app e t : nosep e -> e <> [] -> elements (e ++ SEP :: t) = e :: elements t.
Proof.
  intros H Hne. unfold elements. rewrite split_nosep_app by assumption.
  destruct e; [congruence|reflexivity].
Qed.

(** General splitting at a separator. *)
Lemma elements_app_sep a t : elements (a ++ SEP :: t) = elements a ++ elements t.
Proof.
  unfold elements. induction a as [|x a IH]; [reflexivity|]. simpl.
  destruct (x =? 47)%Z; simpl; [assumption|].
  destruct (split_sep_cons a) as (e & es & E). rewrite E in *.
  destruct (split_sep_cons (a ++ SEP :: t)) as (e' & es' & E'). rewrite E' in *. simpl in *.
  assert (Hee : e' = e).
  { clear -E E'. revert e es e' es' E E'. induction a as [|y a IH]; simpl; intros e es e' es' E E'.
    - congruence.
    - destruct (y =? 47)%Z; [congruence|].
      destruct (split_sep_cons a) as (f & fs & F). destruct (split_sep_cons (a ++ SEP :: t)) as (f' & fs' & F').
      rewrite F in E. rewrite F' in E'. assert (f' = f) by (eapply IH; eassumption). congruence. }
  subst e'. destruct e; simpl in *; [congruence|]. inversion IH; subst. congruence.
Qed.

Lemma elements_app_seps a b : seps b -> elements (a ++ b) = elements a.
Proof.
  intros H. destruct b as [|x b]; [rewrite app_nil_r; reflexivity|].
  assert (x = SEP /\ seps b) as [-> Hb].
  { unfold seps in *. simpl in H. apply andb_prop in H. destruct H as [Hx Hb].
    unfold is_sep in Hx. apply Z.eqb_eq in Hx. auto. }
  rewrite elements_app_sep. rewrite <- (app_nil_r b), elements_seps by assumption.
  unfold elements at 2. simpl. apply app_nil_r.
Qed.

Lemma elements_app_mid a m b : seps m -> m <> [] -> elements (a ++ m ++ b) = elements a ++ elements b.
Proof.
  intros H Hne. destruct m as [|x m]; [congruence|].
  assert (x = SEP /\ seps m) as [-> Hb].
  { unfold seps in *. simpl in H. apply andb_prop in H. destruct H as [Hx Hb].
    unfold is_sep in Hx. apply Z.eqb_eq in Hx. auto. }
  simpl. rewrite elements_app_sep, elements_seps by assumption. reflexivity.
Qed.

(** ** views *)
Lemma in_elem_0 : in_elem 0%Z = false. Proof. reflexivity. Qed.
Lemma is_sep_0 : is_sep 0%Z = false. Proof. reflexivity. Qed.

Lemma in_elem_true x : x <> SEP -> x <> 0%Z -> in_elem x = true.
Proof.
  intros H1 H2. unfold in_elem, NUL. apply Z.eqb_neq in H1, H2. rewrite H1, H2. reflexivity.
Qed.

Lemma span_in_elem l : is_cstr l -> let e := fst (span in_elem l) in
  nosep e /\ match snd (span in_elem l) with [] => True | x :: _ => x = SEP end.
Proof.
  intros Hl e. assert (H1 := span_fst in_elem l). assert (H2 := span_snd in_elem l).
  assert (H3 := span_app in_elem l). split.
  - unfold nosep. apply forallb_forall. intros x Hx. rewrite forallb_forall in H1. specialize (H1 x Hx).
    unfold in_elem in H1. apply andb_prop in H1. destruct H1. unfold not_sep, SEP. assumption.
  - destruct (snd (span in_elem l)) as [|x t]; [trivial|].
    assert (Hx : (0 < x < 256)%Z).
    { unfold is_cstr in Hl. rewrite Forall_forall in Hl. apply Hl. rewrite <- H3. apply in_or_app. right. left. reflexivity. }
    unfold in_elem, SEP, NUL in *. destruct (Z.eqb_spec x 47); [assumption|].
    destruct (Z.eqb_spec x 0); [lia|discriminate].
Qed.

Lemma is_cstr_skipn k s : is_cstr s -> is_cstr (skipn k s).
Proof. intros H. rewrite <- (firstn_skipn k s) in H. apply is_cstr_app in H. tauto. Qed.

Lemma elements_span l : is_cstr l ->
  match l with
  | [] => True
  | x :: t => x <> SEP ->
     elements l = fst (span in_elem l) :: elements (skipn (length (fst (span in_elem l))) l)
     /\ fst (span in_elem l) <> []
  end.
Proof.
  intros Hc. destruct l as [|x t]; [trivial|]. intros Hx. set (l := x :: t) in *.
  destruct (span_in_elem l Hc) as [H1 H2]. assert (H3 := span_app in_elem l).
  set (e := fst (span in_elem l)) in *. set (r := snd (span in_elem l)) in *.
  assert (Hne : e <> []).
  { unfold e, l. simpl. unfold is_cstr in Hc. inversion Hc; subst.
    rewrite in_elem_true by (assumption || lia). destruct (span in_elem t). simpl. discriminate. }
  split; [|assumption]. rewrite <- H3. rewrite skipn_app_exact.
  destruct r as [|y r]; [rewrite app_nil_r|subst y].
  - rewrite elements_nosep by assumption. reflexivity.
  - rewrite elements_nosep_app by assumption. rewrite elements_sep. reflexivity.
Qed.

Lemma nth_skipn0 {A} k (s : list A) d : nth 0 (skipn k s) d = nth k s d.
Proof.
  revert s; induction k as [|k IH]; intros s; [reflexivity|].
  destruct s; [destruct k; reflexivity|]. simpl. apply IH.
Qed.

(** One step of the iteration. *)
Lemma advance_spec s st en : is_cstr s -> en + 1 <= length s ->
  let pv := {| pv_string := s; pv_start := st; pv_end := en |} in
  (elements (skipn (en + 1) s) = [] /\ path_view_advance pv = OK (pv, false)) \/
  (exists pv' , path_view_advance pv = OK (pv', true) /\
     pv_string pv' = s /\ en + 1 <= pv_start pv' <= pv_end pv' /\ pv_end pv' + 1 <= length s /\
     nosep (view_text pv') /\
     elements (skipn (en + 1) s) = view_text pv' :: elements (skipn (pv_end pv' + 1) s)).
Proof.
  intros Hc Hle pv. unfold path_view_advance. change (pv_string pv) with s. change (pv_end pv) with en.
  cbv zeta. rewrite scan_span by (try exact is_sep_0; lia).
  cbn [bind].
  set (l := skipn (en + 1) s) in *. set (a := fst (span is_sep l)) in *. set (b := snd (span is_sep l)) in *.
  assert (Hab : l = a ++ b) by (symmetry; apply span_app).
  assert (Ha : seps a) by apply span_fst.
  assert (Hb := span_snd is_sep l). fold b in Hb.
  assert (Hlen : length s = en + 1 + length a + length b).
  { assert (length l = length s - (en + 1)) by (apply skipn_length). rewrite Hab, app_length in H. lia. }
  assert (Hskip : skipn (en + 1 + length a) s = b).
  { rewrite <- skipn_skipn. fold l. rewrite Hab. apply skipn_app_exact. }
  assert (Hbc : is_cstr b) by (rewrite <- Hskip; apply is_cstr_skipn; assumption).
  rewrite cget_nth0 by lia. cbn [bind].
  assert (Hn : nth (en + 1 + length a) s 0%Z = nth 0 b 0%Z).
  { rewrite <- Hskip. symmetry. apply nth_skipn0. }
  rewrite Hn.
  assert (He : elements l = elements b) by (rewrite Hab; apply elements_seps; assumption).
  destruct b as [|x b'].
  - left. split; [exact He|]. reflexivity.
  - right. simpl nth. assert (Hx : (0 < x < 256)%Z) by (inversion Hbc; assumption).
    destruct (Z.eqb_spec x NUL) as [E|E]; [unfold NUL in E; lia|].
    rewrite scan_span; [|exact in_elem_0|simpl in Hlen; lia|lia].
    cbn [bind].
    assert (Hs1 : skipn (en + 1 + length a + 1) s = b').
    { rewrite <- skipn_skipn, Hskip. reflexivity. }
    rewrite Hs1.
    assert (Hxs : x <> SEP) by (unfold is_sep in Hb; apply Z.eqb_neq in Hb; exact Hb).
    assert (HE := elements_span (x :: b') Hbc). cbv beta iota in HE. destruct (HE Hxs) as [HE1 HE2].
    assert (Hsp : fst (span in_elem (x :: b')) = x :: fst (span in_elem b')).
    { simpl. rewrite in_elem_true by (assumption || lia). destruct (span in_elem b'); reflexivity. }
    set (e' := fst (span in_elem b')) in *.
    assert (Hel : length e' <= length b').
    { assert (G := span_app in_elem b'). apply (f_equal (@length Z)) in G. rewrite app_length in G. fold e' in G. lia. }
    eexists. split; [reflexivity|]. simpl pv_string. simpl pv_start. simpl pv_end.
    assert (Hvt : view_text {| pv_string := s; pv_start := en + 1 + length a;
       pv_end := en + 1 + length a + 1 + length e' - 1 |} = x :: e').
    { unfold view_text. cbn [pv_start pv_end pv_string]. rewrite Hskip.
      replace (en + 1 + length a + 1 + length e' - 1 - (en + 1 + length a) + 1) with (S (length e')) by lia.
      simpl firstn. f_equal. assert (G := span_app in_elem b'). fold e' in G. rewrite <- G at 1. apply firstn_app_exact. }
    simpl in Hlen. repeat split; try lia.
    + unfold nosep. rewrite Hvt, <- Hsp. apply span_in_elem. assumption.
    + rewrite Hvt, He, HE1, Hsp. f_equal. f_equal.
      replace (en + 1 + length a + 1 + length e' - 1 + 1) with (en + 1 + length a + length (x :: e')) by (simpl; lia).
      rewrite <- skipn_skipn, Hskip. reflexivity.
Qed.

Lemma visit_rest_spec n s st en : is_cstr s -> en + 1 <= length s -> length s - (en + 1) < n ->
  visit_rest n {| pv_string := s; pv_start := st; pv_end := en |} = OK (elements (skipn (en + 1) s)).
Proof.
  revert st en; induction n as [|n IH]; intros st en Hc Hle Hn; [lia|].
  cbn [visit_rest].
  destruct (advance_spec s st en Hc Hle) as [[He Ha]|(pv' & Ha & Hs & Hb & Hl & Hn' & He)].
  - rewrite Ha, He. reflexivity.
  - rewrite Ha. destruct pv' as [s' st' en']. simpl in Hs, Hb, Hl. subst s'.
    rewrite IH by (auto; lia). rewrite He. reflexivity.
Qed.

Lemma visit_spec s : is_cstr s ->
  (absolute s -> visit s = OK ([47%Z] :: elements s)) /\
  (relative s -> visit s = OK (elements s)).
Proof.
  intros Hc. split.
  - intros [t ->]. unfold visit, path_view_new.
    change (cget (47%Z :: t) 0) with (OK 47%Z). cbn [bind]. change (negb (is_sep 47%Z)) with false. cbv iota.
    rewrite cget_nth0 by (simpl; lia). cbn [bind].
    destruct (is_sep (nth 1 (47%Z :: t) 0%Z)) eqn:E1.
    + assert (Ht : exists t', t = SEP :: t').
      { destruct t as [|y t']; simpl in E1; [discriminate|]. unfold is_sep in E1. apply Z.eqb_eq in E1. subst. eauto. }
      destruct Ht as [t' ->].
      rewrite scan_span; [|reflexivity|simpl; lia|simpl; lia]. cbn [bind].
      simpl skipn. set (m := fst (span is_sep t')).
      assert (Hm : seps m) by apply span_fst.
      assert (Ht' := span_app is_sep t'). fold m in Ht'. set (r := snd (span is_sep t')) in *.
      assert (L : length t' = length m + length r) by (rewrite <- Ht', app_length; lia).
      replace (2 + length m - 1) with (length m + 1) by lia.
      rewrite visit_rest_spec; [|assumption|cbn [length]; lia|cbn [length]; lia].
      f_equal. f_equal.
      * unfold view_text. cbn [pv_start pv_end pv_string].
        replace (length m + 1 - (length m + 1) + 1) with 1 by lia.
        assert (G : skipn (length m + 1) (47%Z :: SEP :: t') = SEP :: r).
        { replace (length m + 1) with (S (length m)) by lia. cbn [skipn]. rewrite <- Ht'.
          replace (SEP :: m ++ r) with (m ++ SEP :: r).
          - apply skipn_app_exact.
          - clear -Hm. induction m as [|x m IH]; [reflexivity|]. unfold seps in Hm. simpl in Hm.
            apply andb_prop in Hm. destruct Hm as [Hx Hm]. unfold is_sep in Hx. apply Z.eqb_eq in Hx.
            simpl. rewrite IH by assumption. subst x. reflexivity. }
        rewrite G. reflexivity.
      * replace (length m + 1 + 1) with (2 + length m) by lia.
        change (skipn (2 + length m) (47%Z :: SEP :: t')) with (skipn (length m) t').
        rewrite <- Ht' at 1. rewrite skipn_app_exact.
        change (elements (47%Z :: SEP :: t')) with (elements t'). rewrite <- Ht'.
        rewrite elements_seps by assumption. reflexivity.
    + rewrite visit_rest_spec; [|assumption|cbn [length]; lia|cbn [length]; lia].
      f_equal.
  - intros (c & t & -> & Hc0). unfold visit, path_view_new.
    change (cget (c :: t) 0) with (OK c). cbn [bind].
    assert (Hs : is_sep c = false) by (unfold is_sep; apply Z.eqb_neq; exact Hc0). rewrite Hs. simpl negb. cbv iota.
    rewrite scan_span; [|reflexivity|simpl; lia|simpl; lia]. cbn [bind]. simpl skipn.
    set (e' := fst (span in_elem t)).
    assert (L : length e' <= length t).
    { assert (G := span_app in_elem t). apply (f_equal (@length Z)) in G. rewrite app_length in G. fold e' in G. lia. }
    rewrite visit_rest_spec; [|assumption|cbn [length]; lia|cbn [length]; lia].
    assert (HE := elements_span (c :: t) Hc). destruct (HE Hc0) as [HE1 HE2].
    assert (Hsp : fst (span in_elem (c :: t)) = c :: e').
    { simpl. assert (0 < c)%Z by (inversion Hc; lia). rewrite in_elem_true by (assumption || lia).
      unfold e'. destruct (span in_elem t); reflexivity. }
    rewrite HE1, Hsp. f_equal. f_equal.
    + unfold view_text. cbn [pv_start pv_end pv_string skipn].
      replace (1 + length e' - 1 - 0 + 1) with (S (length e')) by lia. simpl firstn. f_equal.
      assert (G := span_app in_elem t). fold e' in G. rewrite <- G at 1. apply firstn_app_exact.
    + f_equal. replace (1 + length e' - 1 + 1) with (length (c :: e')) by (simpl; lia). reflexivity.
Qed.

(** ** path_view_strcmp *)
(** Comparison of the viewed text, as one structural function. *)
Fixpoint textcmp (v s : list Z) : Z :=
  match v, s with
  | [], [] => 0
  | [], _ => -2
  | _, [] => 1
  | x :: v', y :: s' => if (schar x - schar y =? 0)%Z then textcmp v' s' else schar x - schar y
  end%Z.

Lemma pv_strcmp_loop_spec n pv (pre suf : list Z) :
  n <= length suf -> Forall (fun b => b <> 0%Z) suf ->
  skipn (pv_start pv) (pv_string pv) = pre ++ suf ->
  pv_start pv <= length (pv_string pv) ->
  forall spre str, Forall (fun b => b <> 0%Z) str -> length spre = length pre ->
  (do r <- pv_strcmp_loop n pv (spre ++ str) (length pre);
   match r with
   | inl d => OK d
   | inr i => do y <- cget (spre ++ str) i;
       OK ((if (y =? NUL)%Z then 1 else 0) * 2 - 1 - (if (i =? length pre + n)%nat then 1 else 0))%Z
   end) = OK (textcmp (firstn n suf) str).
Proof.
  revert pre suf; induction n as [|n IH]; intros pre suf Hn Hsuf Hsk Hst spre str Hstr Hl.
  - cbn [pv_strcmp_loop bind firstn]. rewrite <- Hl.
    replace (length spre) with (length spre + 0) at 1 by lia. rewrite cget_app_r. unfold cget, aget.
    rewrite Nat.add_0_r, Nat.eqb_refl. destruct str as [|y str]; simpl; [reflexivity|].
    inversion Hstr; subst. destruct (Z.eqb_spec y NUL); [contradiction|]. reflexivity.
  - destruct suf as [|x suf]; [simpl in Hn; lia|]. inversion Hsuf as [|? ? Hx Hsuf']; subst.
    cbn [pv_strcmp_loop firstn].
    assert (Hgets : cget (spre ++ str) (length pre) = cget str 0).
    { rewrite <- Hl. replace (length spre) with (length spre + 0) by lia. apply cget_app_r. }
    assert (Hgetv : cget (pv_string pv) (pv_start pv + length pre) = OK x).
    { rewrite <- (firstn_skipn (pv_start pv) (pv_string pv)), Hsk.
      rewrite <- (firstn_length_le (pv_string pv) Hst) at 2.
      rewrite cget_app_r. apply cget_app_at. }
    rewrite Hgets. destruct str as [|y str].
    + change (cget [] 0) with (OK 0%Z). cbn [bind]. change (0 =? NUL)%Z with true. cbv iota.
      cbn [bind]. rewrite Hgets. change (cget [] 0) with (OK 0%Z). cbn [bind]. change (0 =? NUL)%Z with true. cbv iota.
      destruct (Nat.eqb_spec (length pre) (length pre + S n)); [lia|]. reflexivity.
    + change (cget (y :: str) 0) with (OK y). cbn [bind]. inversion Hstr as [|? ? Hy Hstr']; subst.
      destruct (Z.eqb_spec y NUL); [contradiction|].
      rewrite Hgetv. cbn [bind]. simpl textcmp.
      destruct (Z.eqb_spec (schar x - schar y) 0) as [E|E]; [|reflexivity].
      specialize (IH (pre ++ [x]) suf). rewrite !app_length in IH. simpl length in IH.
      specialize (IH ltac:(simpl in Hn; lia) Hsuf').
      rewrite <- app_assoc in IH. specialize (IH Hsk Hst (spre ++ [y]) str Hstr').
      rewrite app_length, <- app_assoc in IH. simpl app in IH.
      specialize (IH ltac:(simpl; lia)).
      replace (length pre + 1 + n) with (length pre + S n) in IH by lia. exact IH.
Qed.

Definition view_ok (pv : path_view) : Prop :=
  pv_start pv <= pv_end pv /\ pv_end pv < length (pv_string pv).

Lemma path_view_strcmp_text pv str : view_ok pv -> is_cstr (pv_string pv) -> is_cstr str ->
  path_view_strcmp pv str = OK (textcmp (view_text pv) str).
Proof.
  intros [H1 H2] Hc Hs. unfold path_view_strcmp.
  assert (G := pv_strcmp_loop_spec (pv_len pv) pv [] (skipn (pv_start pv) (pv_string pv))).
  unfold pv_len in *. rewrite skipn_length in G. specialize (G ltac:(lia)).
  specialize (G (is_cstr_nonzero _ (is_cstr_skipn _ _ Hc)) eq_refl ltac:(lia) [] str (is_cstr_nonzero _ Hs) eq_refl).
  exact G.
Qed.

Lemma schar_inj x y : (0 < x < 256 -> 0 < y < 256 -> schar x - schar y = 0 -> x = y)%Z.
Proof. unfold schar. destruct (Z.ltb_spec x 128), (Z.ltb_spec y 128); lia. Qed.

Lemma textcmp_zero v s : is_cstr v -> is_cstr s -> (textcmp v s = 0%Z <-> v = s).
Proof.
  revert s; induction v as [|x v IH]; intros [|y s] Hv Hs; simpl.
  - tauto.
  - split; [lia|discriminate].
  - split; [lia|discriminate].
  - inversion Hv; subst. inversion Hs; subst.
    destruct (Z.eqb_spec (schar x - schar y) 0) as [E|E].
    + rewrite IH by assumption. apply schar_inj in E; [|assumption..]. subst y.
      split; [intros ->; reflexivity|congruence].
    + split; [intros; lia|]. intros H; inversion H; subst. lia.
Qed.

Lemma textcmp_sign v s : ascii_str v -> ascii_str s -> Z.sgn (textcmp v s) = strcmp v s.
Proof.
  revert s; induction v as [|x v IH]; intros [|y s] Hv Hs; simpl; try reflexivity.
  inversion Hv; subst. inversion Hs; subst. unfold schar.
  destruct (Z.ltb_spec x 128), (Z.ltb_spec y 128); try lia.
  destruct (Z.eqb_spec (x - y) 0), (Z.eqb_spec x y); try lia; [apply IH; assumption|].
  destruct (Z.ltb_spec x y); lia.
Qed.

Lemma view_text_cstr pv : is_cstr (pv_string pv) -> is_cstr (view_text pv).
Proof.
  intros H. unfold view_text. unfold is_cstr in *. rewrite Forall_forall in *. intros x Hx. apply H.
  assert (G : In x (skipn (pv_start pv) (pv_string pv))).
  { rewrite <- (firstn_skipn (pv_end pv - pv_start pv + 1) (skipn (pv_start pv) (pv_string pv))). apply in_or_app. auto. }
  rewrite <- (firstn_skipn (pv_start pv) (pv_string pv)). apply in_or_app. auto.
Qed.

Lemma view_strcmp_eq pv str : view_ok pv -> is_cstr (pv_string pv) -> is_cstr str ->
  exists c, path_view_strcmp pv str = OK c /\ (c = 0%Z <-> view_text pv = str).
Proof.
  intros Hv Hc Hs. eexists. split; [apply path_view_strcmp_text; assumption|].
  apply textcmp_zero; [apply view_text_cstr; assumption|assumption].
Qed.

Lemma ascii_is_cstr s : ascii_str s -> is_cstr s.
Proof. intros H. eapply Forall_impl; [|exact H]. cbv beta. lia. Qed.

Lemma view_strcmp_order pv str : view_ok pv -> ascii_str (pv_string pv) -> ascii_str str ->
  exists c, path_view_strcmp pv str = OK c /\
    ((c < 0)%Z <-> bytes_lt (view_text pv) str) /\ ((0 < c)%Z <-> bytes_lt str (view_text pv)).
Proof.
  intros Hv Hc Hs. eexists. split; [apply path_view_strcmp_text; auto using ascii_is_cstr|].
  assert (Ha : ascii_str (view_text pv)).
  { unfold ascii_str in *. rewrite Forall_forall in *. intros x Hx. apply Hc. unfold view_text in Hx.
    rewrite <- (firstn_skipn (pv_start pv) (pv_string pv)). apply in_or_app. right.
    rewrite <- (firstn_skipn (pv_end pv - pv_start pv + 1) (skipn (pv_start pv) (pv_string pv))). apply in_or_app. auto. }
  assert (G := textcmp_sign _ _ Ha Hs).
  rewrite <- strcmp_lt_bytes, <- strcmp_gt_bytes, <- G. lia.
Qed.

(** ** stralloc *)
Lemma firstn_app_le {A} n (a b : list A) : n <= length a -> firstn n (a ++ b) = firstn n a.
Proof. intros H. rewrite firstn_app. replace (n - length a) with 0 by lia. apply app_nil_r. Qed.

Lemma stralloc_spec pv : view_ok pv -> is_cstr (pv_string pv) ->
  path_view_stralloc pv = OK (view_text pv).
Proof.
  intros [H1 H2] Hc. unfold path_view_stralloc, malloc.
  assert (Hn : pv_start pv + pv_len pv <= length (pv_string pv)) by (unfold pv_len; lia).
  rewrite memcpy_ok by (rewrite ?repeat_length, ?app_length; simpl; lia). cbn [bind].
  change (firstn 0 (repeat JUNK (pv_len pv + 1))) with (@nil Z). rewrite app_nil_l, Nat.add_0_l.
  assert (Hv : firstn (pv_len pv) (skipn (pv_start pv) (pv_string pv ++ [NUL])) = view_text pv).
  { unfold view_text, pv_len. rewrite skipn_app, firstn_app_le; [reflexivity|]. rewrite skipn_length. lia. }
  rewrite Hv.
  assert (Hl : length (view_text pv) = pv_len pv).
  { unfold view_text, pv_len. rewrite firstn_length, skipn_length. lia. }
  replace (skipn (pv_len pv) (repeat JUNK (pv_len pv + 1))) with [JUNK].
  2:{ rewrite repeat_app. rewrite <- (repeat_length JUNK (pv_len pv)) at 1. rewrite skipn_app_exact. reflexivity. }
  rewrite aset_lt by (rewrite app_length; simpl; lia). cbn [bind].
  rewrite <- Hl at 1. rewrite firstn_app_exact.
  apply cstring_at_app. apply is_cstr_nonzero, view_text_cstr, Hc.
Qed.

(** ** scanning backwards *)
Lemma nth_app_mid {A} (a : list A) x b d : nth (length a) (a ++ x :: b) d = x.
Proof. apply nth_middle. Qed.

Definition ends_not (p : Z -> bool) (pre : list Z) : Prop :=
  pre = [] \/ exists q z, pre = q ++ [z] /\ p z = false.

Lemma scan_back_run s pre mid post p k : s = pre ++ mid ++ post ->
  forallb p mid = true -> ends_not p pre -> mid <> [] -> k = length pre + length mid - 1 ->
  scan_back s p k = OK (length pre - 1).
Proof.
  intros Es Hm Hp Hne Hk.
  assert (Hlm : 0 < length mid) by (destruct mid; [congruence|simpl; lia]).
  assert (Hls : length s = length pre + length mid + length post) by (subst s; rewrite !app_length; lia).
  destruct (scan_back_char s p k) as (r & Hr & Hle & H1 & H2); [lia|]. rewrite Hr. f_equal.
  assert (Hmid : forall j, length pre <= j < length pre + length mid -> p (nth j s 0%Z) = true).
  { intros j Hj. rewrite Es, app_nth2 by lia. rewrite app_nth1 by lia.
    rewrite forallb_forall in Hm. apply Hm, nth_In. lia. }
  destruct Hp as [-> | (q & z & -> & Hz)].
  - simpl in *. destruct H2 as [H2|[-> H2]]; [|reflexivity].
    rewrite Hmid in H2 by lia. discriminate.
  - assert (Hzs : nth (length q) s 0%Z = z).
    { rewrite Es. rewrite <- app_assoc. simpl. apply nth_middle. }
    rewrite app_length in *. simpl in *.
    destruct (lt_eq_lt_dec r (length q)) as [[L|E]|L].
    + assert (p (nth (length q) s 0%Z) = true) by (apply H1; lia). rewrite Hzs in H. congruence.
    + lia.
    + destruct H2 as [H2|[-> H2]]; [|lia]. rewrite Hmid in H2 by lia. discriminate.
Qed.

Lemma strip_end p s : exists a b, s = a ++ b /\ forallb p b = true /\ ends_not p a.
Proof.
  induction s as [|x s IH] using rev_ind.
  - exists [], []. repeat split. left. reflexivity.
  - destruct (p x) eqn:E.
    + destruct IH as (a & b & -> & Hb & Ha). exists a, (b ++ [x]).
      rewrite app_assoc. repeat split; [|assumption]. rewrite forallb_app, Hb. simpl. rewrite E. reflexivity.
    + exists (s ++ [x]), []. rewrite app_nil_r. repeat split. right. exists s, x. auto.
Qed.

Lemma last_sep_app s1 s2 i acc : last_sep (s1 ++ s2) i acc = last_sep s2 (i + length s1) (last_sep s1 i acc).
Proof.
  revert i acc; induction s1 as [|x s1 IH]; intros i acc; simpl; [rewrite Nat.add_0_r; reflexivity|].
  rewrite IH. f_equal. lia.
Qed.
Lemma last_sep_none s i acc : nosep s -> last_sep s i acc = acc.
Proof.
  unfold nosep. revert i acc; induction s as [|x s IH]; intros i acc H; simpl in *; [reflexivity|].
  apply andb_prop in H. destruct H as [Hx Hs]. unfold not_sep in Hx. unfold is_sep.
  destruct (x =? SEP)%Z; [discriminate|]. auto.
Qed.
Lemma last_sep_at a b i acc : nosep b -> last_sep (a ++ SEP :: b) i acc = Some (i + length a).
Proof. intros H. rewrite last_sep_app. simpl. apply last_sep_none. assumption. Qed.

Lemma seps_rev_cons m : seps m -> m <> [] -> exists m', m = m' ++ [SEP] /\ seps m'.
Proof.
  intros H Hne. destruct (exists_last Hne) as (m' & x & ->). exists m'.
  unfold seps in *. rewrite forallb_app in H. apply andb_prop in H. destruct H as [H1 H2].
  simpl in H2. rewrite andb_true_r in H2. unfold is_sep in H2. apply Z.eqb_eq in H2. subst. auto.
Qed.

(** Shape of every absolute path that has an element. *)
Record shape (s h0 sp e tr : list Z) : Prop := {
  sh_eq : s = h0 ++ sp ++ e ++ tr;
  sh_h0 : h0 = [] \/ (absolute h0 /\ exists q z, h0 = q ++ [z] /\ z <> SEP);
  sh_sp : seps sp; sh_sp_ne : sp <> [];
  sh_e : nosep e; sh_e_ne : e <> [];
  sh_tr : seps tr }.

Lemma absolute_shape s : absolute s -> elements s <> [] -> exists h0 sp e tr, shape s h0 sp e tr.
Proof.
  intros [t Et] Hel.
  destruct (strip_end is_sep s) as (body & tr & E1 & Htr & Hb).
  destruct Hb as [-> | (q & z & -> & Hz)].
  { exfalso. apply Hel. simpl in E1. rewrite E1. rewrite <- (app_nil_l tr). rewrite elements_app_seps by assumption. reflexivity. }
  destruct (strip_end not_sep (q ++ [z])) as (head & e & E2 & He & Hh).
  assert (Hene : e <> []).
  { intros ->. rewrite app_nil_r in E2. destruct Hh as [-> | (q' & z' & -> & Hz')].
    - destruct q; discriminate.
    - apply app_inj_tail in E2. destruct E2 as [_ <-]. unfold not_sep in Hz'. unfold is_sep in Hz.
      rewrite Hz in Hz'. discriminate. }
  destruct Hh as [-> | (q' & z' & -> & Hz')].
  { exfalso. simpl in E2. rewrite E1, E2 in Et. destruct e as [|x e']; [congruence|].
    simpl in Et. inversion Et; subst x. simpl in He. discriminate. }
  assert (z' = SEP) as ->.
  { unfold not_sep in Hz'. destruct (Z.eqb_spec z' SEP); [assumption|discriminate]. }
  destruct (strip_end is_sep q') as (h0 & sp & E3 & Hsp & Hh0).
  exists h0, (sp ++ [SEP]), e, tr. constructor; auto.
  - rewrite E1, E2, E3. rewrite <- !app_assoc. reflexivity.
  - destruct Hh0 as [-> | (q'' & z'' & -> & Hz'')]; [left; reflexivity|right].
    split.
    + rewrite E1, E2, E3, <- !app_assoc in Et. destruct q'' as [|y q'']; simpl in Et; inversion Et; subst.
      * discriminate.
      * exists (q'' ++ [z'']). reflexivity.
    + exists q'', z''. split; [reflexivity|]. unfold is_sep in Hz''. apply Z.eqb_neq in Hz''. assumption.
  - unfold seps. rewrite forallb_app. apply andb_true_intro; split; [exact Hsp|reflexivity].
  - destruct sp; discriminate.
Qed.

Lemma nth_In_nosep e i : nosep e -> i < length e -> nth i e 0%Z <> SEP.
Proof.
  intros H Hi. unfold nosep in H. rewrite forallb_forall in H.
  assert (G := H _ (nth_In e 0%Z Hi)). unfold not_sep in G. destruct (Z.eqb_spec (nth i e 0%Z) SEP); [discriminate|assumption].
Qed.

Lemma move_up_shape s h0 sp e tr : is_cstr s -> shape s h0 sp e tr ->
  path_move_up s = OK (Some (length h0)).
Proof.
  intros Hc [Es Hh0 Hsp Hspne He Hene Htr].
  assert (Lsp : 0 < length sp) by (destruct sp; [congruence|simpl; lia]).
  assert (Le : 0 < length e) by (destruct e; [congruence|simpl; lia]).
  assert (Hend0 : ends_not is_sep h0).
  { destruct Hh0 as [->|[_ (q & z & -> & Hz)]]; [left; reflexivity|right]. exists q, z. split; [reflexivity|].
    unfold is_sep. apply Z.eqb_neq. assumption. }
  assert (Hh0len : h0 = [] \/ 2 <= length h0).
  { destruct Hh0 as [->|[[t ->] (q & z & E & Hz)]]; [auto|right]. destruct t as [|y t]; simpl; [|lia].
    destruct q as [|a [|b q]]; simpl in E; inversion E; subst; contradiction. }
  (* final phase: from the last separator of [sp] *)
  assert (Hfin : scan_back s is_sep (length h0 + length sp - 1) = OK (length h0 - 1)).
  { eapply (scan_back_run s h0 sp (e ++ tr)); auto. }
  assert (Hres : (if length h0 - 1 =? 0 then 0 else length h0 - 1 + 1) = length h0).
  { destruct Hh0len as [->|L]; [reflexivity|]. destruct (Nat.eqb_spec (length h0 - 1) 0); lia. }
  unfold path_move_up.
  destruct (seps_rev_cons sp Hsp Hspne) as (sp' & Esp & Hsp').
  destruct (list_eq_dec Z.eq_dec tr []) as [Etr0|Htrne].
  - subst tr. rewrite app_nil_r in Es.
    assert (E1 : s = (h0 ++ sp') ++ SEP :: e) by (rewrite Es, Esp, <- !app_assoc; reflexivity).
    rewrite E1 at 1. rewrite last_sep_at by assumption. simpl Nat.add.
    assert (Hpos : length (h0 ++ sp') = length h0 + length sp - 1).
    { rewrite app_length, Esp, app_length. simpl. lia. }
    assert (Hls : length s = length h0 + length sp + length e) by (rewrite Es, !app_length; lia).
    rewrite Hpos. rewrite cget_nth0 by lia. cbn [bind].
    assert (Hc1 : nth (length h0 + length sp - 1 + 1) s 0%Z <> NUL).
    { assert (G : In (nth (length h0 + length sp - 1 + 1) s 0%Z) s) by (apply nth_In; lia).
      unfold is_cstr in Hc. rewrite Forall_forall in Hc. specialize (Hc _ G). unfold NUL. lia. }
    destruct (Z.eqb_spec (nth (length h0 + length sp - 1 + 1) s 0%Z) NUL); [contradiction|].
    cbn [bind]. rewrite Hfin. cbn [bind]. rewrite Hres. reflexivity.
  - assert (exists tr'', tr = tr'' ++ [SEP] /\ seps tr'') as (tr'' & Etr & Htr'').
    { apply seps_rev_cons; assumption. }
    assert (Ltr : 0 < length tr) by (rewrite Etr, app_length; simpl; lia).
    assert (Hls : length s = length h0 + length sp + length e + length tr) by (rewrite Es, !app_length; lia).
    assert (E1 : s = (h0 ++ sp ++ e ++ tr'') ++ SEP :: []).
    { rewrite Es, Etr. rewrite <- !app_assoc. reflexivity. }
    rewrite E1 at 1. rewrite last_sep_at by reflexivity. simpl Nat.add.
    assert (Hpos : length (h0 ++ sp ++ e ++ tr'') = length s - 1).
    { apply (f_equal (@length Z)) in E1. rewrite app_length in E1. simpl in E1. lia. }
    rewrite Hpos. rewrite cget_nth0 by lia. cbn [bind].
    rewrite nth_overflow by lia. change (0 =? NUL)%Z with true. cbv iota.
    assert (Hen : ends_not is_sep (h0 ++ sp ++ e)).
    { right. destruct (exists_last Hene) as (e' & z & ->). exists (h0 ++ sp ++ e'), z.
      split; [rewrite <- !app_assoc; reflexivity|].
      unfold nosep in He. rewrite forallb_app in He. apply andb_prop in He. destruct He as [_ He]. simpl in He.
      rewrite andb_true_r in He. unfold not_sep in He. unfold is_sep. destruct (z =? SEP)%Z; [discriminate|reflexivity]. }
    rewrite (scan_back_run s (h0 ++ sp ++ e) tr [] is_sep); auto;
      [|rewrite Es, app_nil_r, <- !app_assoc; reflexivity|rewrite !app_length; lia].
    cbn [bind].
    destruct (Nat.eqb_spec (length (h0 ++ sp ++ e) - 1) 0) as [E0|E0]; [rewrite !app_length in E0; lia|].
    rewrite (scan_back_run s (h0 ++ sp) e tr not_sep); auto.
    + cbn [bind].
      replace (length (h0 ++ sp) - 1) with (length h0 + length sp - 1) by (rewrite app_length; lia).
      rewrite Hfin. cbn [bind]. rewrite Hres. reflexivity.
    + rewrite Es, <- !app_assoc. reflexivity.
    + right. exists (h0 ++ sp'), SEP. split; [rewrite Esp, <- !app_assoc; reflexivity|reflexivity].
    + rewrite !app_length. lia.
Qed.

Lemma move_up_root s : absolute s -> elements s = [] -> path_move_up s = OK None.
Proof.
  intros Ha He.
  assert (Hs : seps s).
  { destruct (strip_end is_sep s) as (a & b & -> & Hb & Hp). destruct Hp as [-> | (q & z & -> & Hz)]; [assumption|].
    exfalso. rewrite elements_app_seps in He by assumption.
    destruct (strip_end not_sep (q ++ [z])) as (h & e & E & He' & Hh).
    assert (e <> []).
    { intros ->. rewrite app_nil_r in E. destruct Hh as [-> | (q' & z' & -> & Hz')]; [destruct q; discriminate|].
      apply app_inj_tail in E. destruct E as [_ <-]. unfold not_sep in Hz'. unfold is_sep in Hz. rewrite Hz in Hz'. discriminate. }
    rewrite E in He. destruct Hh as [-> | (q' & z' & -> & Hz')].
    - simpl in He. rewrite elements_nosep in He by assumption. discriminate.
    - assert (z' = SEP) as -> by (unfold not_sep in Hz'; destruct (Z.eqb_spec z' SEP); [assumption|discriminate]).
      rewrite <- app_assoc in He. simpl in He. rewrite elements_app_sep in He.
      rewrite (elements_nosep e) in He by assumption. destruct (elements q'); discriminate. }
  assert (Hne : s <> []) by (destruct Ha as [t ->]; discriminate).
  destruct (seps_rev_cons s Hs Hne) as (s' & E & Hs').
  assert (L : length s = length s' + 1) by (rewrite E, app_length; reflexivity).
  unfold path_move_up. rewrite E at 1. rewrite last_sep_at by reflexivity. simpl Nat.add.
  rewrite cget_nth0 by lia. rewrite nth_overflow by lia. cbn [bind]. change (0 =? NUL)%Z with true. cbv iota.
  rewrite (scan_back_run s [] s [] is_sep); auto.
  - rewrite app_nil_r. reflexivity.
  - left. reflexivity.
  - simpl. lia.
Qed.

Lemma removelast_app_one {A} (l : list A) x : removelast (l ++ [x]) = l.
Proof. rewrite removelast_app by discriminate. simpl. apply app_nil_r. Qed.

Lemma move_up_parent s : is_cstr s -> absolute s -> elements s <> [] ->
  exists k, path_move_up s = OK (Some k) /\ k < length s /\
    absolute (firstn (Nat.max 1 k) s) /\
    elements (firstn (Nat.max 1 k) s) = removelast (elements s).
Proof.
  intros Hc Ha He. destruct (absolute_shape s Ha He) as (h0 & sp & e & tr & Hsh).
  exists (length h0). split; [eapply move_up_shape; eassumption|].
  destruct Hsh as [Es Hh0 Hsp Hspne He' Hene Htr].
  assert (Lsp : 0 < length sp) by (destruct sp; [congruence|simpl; lia]).
  assert (Hel : elements s = elements h0 ++ [e]).
  { rewrite Es, elements_app_mid by assumption. rewrite elements_app_seps by assumption.
    rewrite (elements_nosep e) by assumption. reflexivity. }
  split; [rewrite Es, !app_length; lia|].
  rewrite Hel, removelast_app_one.
  destruct Hh0 as [->|[[t Et] (q & z & Eq & Hz)]].
  - simpl Nat.max. destruct sp as [|x sp]; [congruence|]. assert (x = SEP) as ->.
    { unfold seps in Hsp. simpl in Hsp. apply andb_prop in Hsp. destruct Hsp as [Hx _]. unfold is_sep in Hx.
      apply Z.eqb_eq in Hx. assumption. }
    rewrite Es. simpl. split; [exists []; reflexivity|reflexivity].
  - replace (Nat.max 1 (length h0)) with (length h0) by (subst h0; simpl; lia).
    rewrite Es, firstn_app_exact. split; [exists t; assumption|reflexivity].
Qed.

(** ** path_join *)
Lemma join_skip_spec fuel rhs pre mid post : rhs = pre ++ mid ++ post -> seps mid ->
  (match post with [] => True | x :: _ => x <> SEP end) ->
  length mid < fuel ->
  join_skip fuel rhs (length pre) =
  OK (match post with [] => if length mid =? 0 then length pre else length rhs - 1
      | _ => length pre + length mid end).
Proof.
  revert pre fuel; induction mid as [|x mid IH]; intros pre fuel Er Hm Hp Hf;
    (destruct fuel as [|fuel]; [simpl in Hf; lia|]); cbn [join_skip].
  - simpl app in Er. simpl length. rewrite Nat.add_0_r. destruct post as [|y post].
    + rewrite app_nil_r in Er. subst rhs. rewrite cget_end. cbn [bind]. reflexivity.
    + subst rhs. rewrite cget_app_at. cbn [bind]. unfold is_sep. apply Z.eqb_neq in Hp. rewrite Hp. reflexivity.
  - unfold seps in Hm. simpl in Hm. apply andb_prop in Hm. destruct Hm as [Hx Hm].
    replace (cget rhs (length pre)) with (OK x) by (rewrite Er; simpl app; rewrite cget_app_at; reflexivity).
    cbn [bind]. change ((x =? 47)%Z) with (is_sep x) in Hx. rewrite Hx.
    assert (Lr : length rhs = length pre + S (length mid) + length post) by (rewrite Er, !app_length; simpl; lia).
    destruct (Nat.eqb_spec (length pre) (length rhs - 1)) as [E|E].
    + destruct mid; [|simpl in *; lia]. destruct post; [|simpl in *; lia]. simpl. f_equal. lia.
    + specialize (IH (pre ++ [x]) fuel). rewrite app_length in IH. simpl length in IH.
      rewrite IH; [|rewrite Er, <- app_assoc; reflexivity|exact Hm|exact Hp|simpl in Hf; lia].
      destruct post as [|y post].
      * simpl length. destruct mid; simpl in *; [lia|reflexivity].
      * f_equal. simpl. lia.
Qed.

Lemma aset_exact {A} (a : list A) x b v : aset (a ++ x :: b) (length a) v = OK (a ++ v :: b).
Proof. induction a as [|y a IH]; simpl; [reflexivity|]. rewrite IH. reflexivity. Qed.

Lemma join_bytes l1 l2 r1 r2 :
  is_cstr (l1 ++ l2) -> is_cstr (r1 ++ r2) ->
  let lhs := l1 ++ l2 in let rhs := r1 ++ r2 in
  let i := length l1 - 1 in let j := length r1 in l1 <> [] ->
  forall str_len, str_len = (i + 1) + (length rhs - j) + 1 ->
   (do b1 <- memcpy (malloc (str_len + 1)) 0 (lhs ++ [NUL]) 0 (i + 1);
    do b2 <- memcpy b1 (i + 2) (rhs ++ [NUL]) j (length rhs - j);
    do b3 <- aset b2 (i + 1) SEP;
    do b4 <- aset b3 str_len NUL;
    cstring_at b4) = OK (l1 ++ SEP :: r2).
Proof.
  intros Hl Hr lhs rhs i j Hne str_len Hstr.
  assert (L1 : 0 < length l1) by (destruct l1; [congruence|simpl; lia]).
  assert (Ei : i + 1 = length l1) by (unfold i; lia).
  assert (Er : length rhs - j = length r2) by (unfold rhs, j; rewrite app_length; lia).
  assert (Es : str_len = length l1 + length r2 + 1) by lia.
  rewrite Ei, Er, Es. unfold malloc.
  rewrite memcpy_ok; [|rewrite repeat_length; lia|unfold lhs; rewrite !app_length; simpl; lia].
  cbn [bind]. simpl firstn at 1. simpl app at 1. simpl skipn at 1. simpl Nat.add at 1.
  replace (firstn (length l1) (lhs ++ [NUL])) with l1.
  2:{ unfold lhs. rewrite <- app_assoc, firstn_app_exact. reflexivity. }
  replace (length l1 + length r2 + 1 + 1) with (length l1 + (1 + (length r2 + 1))) by lia.
  rewrite repeat_app. rewrite <- (repeat_length JUNK (length l1)) at 1. rewrite skipn_app_exact.
  replace (i + 2) with (length l1 + 1) by lia.
  rewrite repeat_app, (repeat_app JUNK (length r2)). cbn [repeat].
  rewrite memcpy_ok;
    [|rewrite !app_length, !repeat_length; simpl; lia|unfold rhs, j; rewrite !app_length; simpl; lia].
  cbn [bind].
  replace (firstn (length l1 + 1) (l1 ++ [JUNK] ++ repeat JUNK (length r2) ++ [JUNK])) with (l1 ++ [JUNK]).
  2:{ rewrite app_assoc. replace (length l1 + 1) with (length (l1 ++ [JUNK])) by (rewrite app_length; reflexivity).
      rewrite firstn_app_exact. reflexivity. }
  replace (firstn (length r2) (skipn j (rhs ++ [NUL]))) with r2.
  2:{ unfold rhs, j. rewrite <- app_assoc, skipn_app_exact, firstn_app_exact. reflexivity. }
  replace (skipn (length l1 + 1 + length r2) (l1 ++ [JUNK] ++ repeat JUNK (length r2) ++ [JUNK])) with [JUNK].
  2:{ rewrite !app_assoc. replace (length l1 + 1 + length r2) with (length ((l1 ++ [JUNK]) ++ repeat JUNK (length r2)))
        by (rewrite !app_length, repeat_length; reflexivity). rewrite skipn_app_exact. reflexivity. }
  rewrite <- app_assoc. simpl app. rewrite aset_exact. cbn [bind].
  replace (length l1 + length r2 + 1) with (length (l1 ++ SEP :: r2)) by (rewrite app_length; simpl; lia).
  replace (l1 ++ SEP :: r2 ++ [JUNK]) with ((l1 ++ SEP :: r2) ++ JUNK :: []) by (rewrite <- app_assoc; reflexivity).
  rewrite aset_exact. cbn [bind]. apply cstring_at_app.
  apply Forall_app. apply is_cstr_app in Hl. apply is_cstr_app in Hr.
  split; [apply is_cstr_nonzero; tauto|]. constructor; [discriminate|]. apply is_cstr_nonzero; tauto.
Qed.

(** Full result of a join. *)
Lemma join_spec lhs rhs : is_cstr lhs -> is_cstr rhs -> lhs <> [] ->
  exists l1 l2 r1 r2,
    lhs = l1 ++ l2 /\ rhs = r1 ++ r2 /\ seps l2 /\ seps r1 /\ l1 <> [] /\
    (ends_not is_sep l1 \/ l1 = [SEP]) /\
    (match r2 with [] => rhs = [] | x :: t => x <> SEP \/ t = [] end) /\
    path_join lhs rhs = OK (l1 ++ SEP :: r2).
Proof.
  intros Hl Hr Hne.
  assert (L0 : 0 < length lhs) by (destruct lhs; [congruence|simpl; lia]).
  (* left part *)
  assert (HL : exists l1 l2, lhs = l1 ++ l2 /\ seps l2 /\ l1 <> [] /\ (ends_not is_sep l1 \/ l1 = [SEP]) /\
            scan_back lhs is_sep (length lhs - 1) = OK (length l1 - 1)).
  { destruct (strip_end is_sep lhs) as (a & b & E & Hb & Ha).
    destruct a as [|a0 a'].
    - simpl in E. destruct lhs as [|x t]; [congruence|].
      assert (x = SEP /\ seps t) as [-> Ht].
      { rewrite <- E in Hb. simpl in Hb. apply andb_prop in Hb. destruct Hb as [Hx Hb]. unfold is_sep in Hx.
        apply Z.eqb_eq in Hx. auto. }
      exists [SEP], t. repeat split; auto; try discriminate.
      rewrite (scan_back_run (SEP :: t) [] (SEP :: t) [] is_sep); auto;
        try reflexivity; try discriminate; try (rewrite app_nil_r; reflexivity); left; reflexivity.
    - exists (a0 :: a'), b. repeat split; auto; try discriminate.
      destruct b as [|b0 b'].
      + rewrite app_nil_r in E. rewrite <- E in *.
        destruct Ha as [Ha|(q & z & Ha & Hz)]; [subst lhs; discriminate|].
        destruct (scan_back_char lhs is_sep (length lhs - 1)) as (r & Hr' & Hle & H1 & H2); [lia|].
        rewrite Hr'. f_equal. destruct (Nat.eq_dec r (length lhs - 1)) as [->|n]; [reflexivity|].
        assert (G : is_sep (nth (length lhs - 1) lhs 0%Z) = true) by (apply H1; lia).
        rewrite Ha in G. rewrite app_length in G. simpl in G.
        replace (length q + 1 - 1) with (length q) in G by lia. rewrite nth_middle in G. congruence.
      + rewrite (scan_back_run lhs (a0 :: a') (b0 :: b') [] is_sep); auto; try discriminate.
        * rewrite app_nil_r. assumption.
        * rewrite E, app_length. lia. }
  (* right part *)
  assert (HR : exists r1 r2, rhs = r1 ++ r2 /\ seps r1 /\
            (match r2 with [] => rhs = [] | x :: t => x <> SEP \/ t = [] end) /\
            join_skip (S (length rhs)) rhs 0 = OK (length r1)).
  { assert (E := span_app is_sep rhs). assert (Hm := span_fst is_sep rhs). assert (Hp := span_snd is_sep rhs).
    set (mid := fst (span is_sep rhs)) in *. set (post := snd (span is_sep rhs)) in *.
    assert (Lr : length rhs = length mid + length post) by (rewrite <- E, app_length; reflexivity).
    assert (G := join_skip_spec (S (length rhs)) rhs [] mid post (eq_sym E) Hm).
    simpl length in G.
    destruct post as [|x post].
    - rewrite app_nil_r in E. specialize (G I ltac:(lia)). destruct mid as [|m0 mid'].
      + exists [], []. rewrite <- E in *. repeat split; auto.
      + destruct (seps_rev_cons (m0 :: mid')) as (m' & Em & Hm'); [assumption|discriminate|].
        exists m', [SEP]. rewrite Em in *. split; [congruence|]. split; [assumption|]. split; [auto|].
        rewrite G. rewrite app_length in *. simpl in *.
        destruct (Nat.eqb_spec (length m' + 1) 0); [lia|]. f_equal. lia.
    - exists mid, (x :: post). repeat split; auto.
      + left. unfold is_sep in Hp. apply Z.eqb_neq in Hp. assumption.
      + apply G; [|lia]. unfold is_sep in Hp. apply Z.eqb_neq in Hp. assumption. }
  destruct HL as (l1 & l2 & EL & Hl2 & Hl1 & Hle & HscanL).
  destruct HR as (r1 & r2 & ER & Hr1 & Hr2 & HscanR).
  exists l1, l2, r1, r2. repeat (split; [assumption|]).
  unfold path_join. destruct lhs as [|x0 lhs'] eqn:Elhs; [congruence|]. rewrite <- Elhs in *.
  rewrite HscanL. cbn [bind]. rewrite HscanR. cbn [bind].
  cbv zeta. rewrite EL, ER.
  apply join_bytes; [rewrite <- EL; assumption|rewrite <- ER; assumption|assumption|reflexivity].
Qed.

Lemma join_elements lhs rhs : is_cstr lhs -> is_cstr rhs -> lhs <> [] ->
  exists s, path_join lhs rhs = OK s /\ elements s = elements lhs ++ elements rhs.
Proof.
  intros Hl Hr Hne. destruct (join_spec lhs rhs Hl Hr Hne) as (l1 & l2 & r1 & r2 & EL & ER & H2 & H1 & _ & _ & _ & Hj).
  exists (l1 ++ SEP :: r2). split; [assumption|].
  rewrite elements_app_sep. rewrite EL, elements_app_seps by assumption.
  rewrite ER, elements_seps by assumption. reflexivity.
Qed.

Lemma join_one_sep lhs rhs : is_cstr lhs -> is_cstr rhs ->
  elements lhs <> [] -> (rhs = [] \/ elements rhs <> []) ->
  exists a la b lb, lhs = a ++ la /\ rhs = lb ++ b /\ seps la /\ seps lb /\
    (exists q z, a = q ++ [z] /\ z <> SEP) /\
    (match b with [] => rhs = [] | x :: _ => x <> SEP end) /\
    path_join lhs rhs = OK (a ++ SEP :: b).
Proof.
  intros Hl Hr Hel Her.
  assert (Hne : lhs <> []) by (intros ->; apply Hel; reflexivity).
  destruct (join_spec lhs rhs Hl Hr Hne) as (l1 & l2 & r1 & r2 & EL & ER & H2 & H1 & Hl1 & He1 & Hr2 & Hj).
  exists l1, l2, r2, r1. repeat (split; [assumption|]). split; [|split; [|assumption]].
  - destruct He1 as [[E|(q & z & E & Hz)]|E]; [congruence| |].
    + exists q, z. split; [assumption|]. unfold is_sep in Hz. apply Z.eqb_neq in Hz. assumption.
    + exfalso. apply Hel. rewrite EL, E. rewrite elements_app_seps by assumption. reflexivity.
  - destruct r2 as [|x t]; [assumption|]. destruct Hr2 as [Hx|Ht]; [assumption|]. subst t.
    intros ->. destruct Her as [E|E].
    + rewrite E in ER. destruct r1; discriminate.
    + apply E. rewrite ER, elements_seps by assumption. reflexivity.
Qed.

(** ** Reachable views are well-formed *)
Lemma view_on_ok s pv : is_cstr s -> view_on s pv -> pv_string pv = s /\ view_ok pv.
Proof.
  intros Hc H. induction H as [pv H|pv pv' _ IH H].
  - unfold path_view_new in H. destruct s as [|c t]; [discriminate|].
    change (cget (c :: t) 0) with (OK c) in H. cbn [bind] in H.
    destruct (is_sep c) eqn:Ec; simpl negb in H; cbv iota in H.
    + rewrite cget_nth0 in H by (simpl; lia). cbn [bind] in H.
      destruct (is_sep (nth 1 (c :: t) 0%Z)) eqn:E1.
      * assert (exists y t', t = y :: t') as (y & t' & ->).
        { destruct t; [discriminate|eauto]. }
        rewrite scan_span in H; [|reflexivity|simpl; lia|simpl; lia]. cbn [bind] in H. simpl skipn in H.
        assert (L : length (fst (span is_sep t')) <= length t').
        { assert (G := span_app is_sep t'). apply (f_equal (@length Z)) in G. rewrite app_length in G. lia. }
        inversion H; subst. unfold view_ok. cbn [pv_string pv_start pv_end length]. split; [reflexivity|]. lia.
      * inversion H; subst. unfold view_ok. cbn [pv_string pv_start pv_end length]. split; [reflexivity|]. lia.
    + rewrite scan_span in H; [|reflexivity|simpl; lia|simpl; lia]. cbn [bind] in H. simpl skipn in H.
      assert (L : length (fst (span in_elem t)) <= length t).
      { assert (G := span_app in_elem t). apply (f_equal (@length Z)) in G. rewrite app_length in G. lia. }
      inversion H; subst. unfold view_ok. cbn [pv_string pv_start pv_end length]. split; [reflexivity|]. lia.
  - destruct IH as [Hs [H1 H2]]. destruct pv as [s' st en]. cbn [pv_string pv_start pv_end] in *. subst s'.
    destruct (advance_spec s st en Hc) as [[_ Ha]|(pv2 & Ha & Hs2 & Hb & Hl & _)]; [lia| |]; rewrite Ha in H.
    + discriminate.
    + inversion H; subst. split; [reflexivity|]. unfold view_ok. lia.
Qed.

Lemma view_eq s pv str : is_cstr s -> is_cstr str -> view_on s pv ->
  exists c, path_view_strcmp pv str = OK c /\ (c = 0%Z <-> view_text pv = str).
Proof.
  intros Hc Hs H. destruct (view_on_ok s pv Hc H) as [E Hv]. subst s.
  apply view_strcmp_eq; assumption.
Qed.

Lemma view_order s pv str : ascii_str s -> ascii_str str -> view_on s pv ->
  exists c, path_view_strcmp pv str = OK c /\
    ((c < 0)%Z <-> bytes_lt (view_text pv) str) /\ ((0 < c)%Z <-> bytes_lt str (view_text pv)).
Proof.
  intros Hc Hs H. destruct (view_on_ok s pv (ascii_is_cstr _ Hc) H) as [E Hv]. subst s.
  apply view_strcmp_order; assumption.
Qed.

(** ** Lookup of a path element in a sorted entry table *)
Lemma entry_signs names pv lo hi :
  view_ok pv -> ascii_str (pv_string pv) -> Forall ascii_str names -> names_sorted names -> hi < length names ->
  signs (fun i => do x <- aget names i; path_view_strcmp pv x) lo hi
        (fun i => textcmp (view_text pv) (nth i names [])).
Proof.
  intros Hv Hp Hn Hs Hh.
  assert (Ha : ascii_str (view_text pv)).
  { unfold ascii_str in *. rewrite Forall_forall in *. intros x Hx. apply Hp. unfold view_text in Hx.
    rewrite <- (firstn_skipn (pv_start pv) (pv_string pv)). apply in_or_app. right.
    rewrite <- (firstn_skipn (pv_end pv - pv_start pv + 1) (skipn (pv_start pv) (pv_string pv))). apply in_or_app. auto. }
  assert (Hni : forall i, i < length names -> ascii_str (nth i names [])).
  { intros i Hi. rewrite Forall_forall in Hn. apply Hn, nth_In, Hi. }
  destruct (name_signs names (view_text pv) lo hi Hs Hh) as [_ Hm].
  split.
  - intros i Hi. rewrite (aget_nth _ _ []) by lia. cbn [bind].
    apply path_view_strcmp_text; auto using ascii_is_cstr. apply ascii_is_cstr, Hni. lia.
  - intros i j Hi Hj. specialize (Hm i j Hi Hj).
    rewrite <- (textcmp_sign _ _ Ha (Hni i ltac:(lia))), <- (textcmp_sign _ _ Ha (Hni j ltac:(lia))) in Hm. lia.
Qed.

Lemma entry_search_iff names pv i :
  view_ok pv -> ascii_str (pv_string pv) -> Forall ascii_str names -> names <> [] -> names_strict names ->
  (entry_binary_search names 0 (length names - 1) pv = OK (Some i) <-> nth_error names i = Some (view_text pv)) /\
  (entry_binary_search names 0 (length names - 1) pv = OK None <-> ~ In (view_text pv) names).
Proof.
  intros Hv Hp Hn Hne Hs.
  assert (0 < length names) by (destruct names; [congruence|simpl; lia]).
  unfold entry_binary_search, bsearch.
  edestruct (bsearch_fuel_spec (S (length names - 1 - 0)) (fun i => do x <- aget names i; path_view_strcmp pv x)
               0 (length names - 1)) as (r & Hr & Hq);
    [lia|lia|apply entry_signs; auto using names_strict_sorted; lia|].
  cbv beta in Hq. rewrite Hr.
  assert (Hcv : is_cstr (view_text pv)) by (apply view_text_cstr, ascii_is_cstr, Hp).
  assert (Hnc : forall k, k < length names -> is_cstr (nth k names [])).
  { intros k Hk. apply ascii_is_cstr. rewrite Forall_forall in Hn. apply Hn, nth_In, Hk. }
  destruct r as [k|].
  - destruct Hq as [Hk Hz].
    apply textcmp_zero in Hz; [|assumption|apply Hnc; lia].
    assert (E : nth_error names k = Some (view_text pv)).
    { rewrite (nth_error_nth' _ []) by lia. congruence. }
    split; split; intros G; try congruence.
    + f_equal. f_equal. eapply names_strict_nth_inj; eassumption.
    + exfalso. apply G. eapply nth_error_In; eassumption.
  - assert (Hnin : ~ In (view_text pv) names).
    { intros Hin. apply (In_nth _ _ []) in Hin. destruct Hin as (k & Hk & Ek).
      apply (Hq k); [lia|]. apply textcmp_zero; [assumption|apply Hnc; lia|congruence]. }
    split; split; intros G; try congruence; try assumption.
    exfalso. apply Hnin. eapply nth_error_In; eassumption.
Qed.

Lemma entry_lookup s pv names i :
  ascii_str s -> view_on s pv -> Forall ascii_str names -> names <> [] -> names_strict names ->
  (entry_binary_search names 0 (length names - 1) pv = OK (Some i) <-> nth_error names i = Some (view_text pv)) /\
  (entry_binary_search names 0 (length names - 1) pv = OK None <-> ~ In (view_text pv) names).
Proof.
  intros Ha H. destruct (view_on_ok s pv (ascii_is_cstr _ Ha) H) as [E Hv]. subst s.
  intros. apply entry_search_iff; assumption.
Qed.
