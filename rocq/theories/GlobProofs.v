(** * Proofs about binout_glob *)
From Verif Require Import CBase CBaseFacts GlobModel GlobSpec.

Lemma win_sep_spec c : win_sep c = true <-> separator c.
Proof. unfold win_sep, separator. lia. Qed.
Lemma held_string s r : Forall (fun c => c <> NUL) s -> held (map Some (s ++ [NUL]) ++ r) = OK s.
Proof.
  induction 1 as [|c s Hc _ IH]; [reflexivity|]. cbn [map app held]. destruct (Z.eqb_spec c NUL) as [E|_]; [congruence|]. rewrite IH. reflexivity.
Qed.
Lemma firstn_succ (s : list Z) : forall n, n < length s -> firstn (S n) s = firstn n s ++ [nth n s NUL].
Proof. induction s as [|x s IH]; intros [|n] L; cbn [length] in L; try lia; [reflexivity|]. cbn [firstn app nth]. f_equal. apply IH. lia. Qed.
Lemma nth_firstn A (l : list A) : forall k m x, nth_error (firstn m l) k = Some x <-> nth_error l k = Some x /\ k < m.
Proof.
  induction l as [|y l IH]; intros k m x; [rewrite firstn_nil; destruct k; cbn; split; [discriminate|intros [? _]; discriminate|discriminate|intros [? _]; discriminate]|].
  destruct m as [|m]; [cbn [firstn]; destruct k; cbn; split; [discriminate|lia|discriminate|lia]|]. destruct k as [|k]; cbn [firstn nth_error]; [split; [intros H; split; [exact H|lia]|tauto]|].
  rewrite IH. split; intros [? ?]; (split; [assumption|lia]).
Qed.
Lemma nth_skipn A (l : list A) : forall n k, nth_error (skipn n l) k = nth_error l (n + k).
Proof. induction l as [|y l IH]; intros [|n] k; cbn [skipn Nat.add nth_error]; auto; [destruct k; reflexivity]. Qed.
Lemma skipn_last (p : list Z) : forall m, length p = S m -> skipn m p = [nth m p NUL].
Proof. induction p as [|x p IH]; intros [|m] L; cbn in L; try lia; [destruct p; [reflexivity|discriminate]|]. cbn [skipn nth]. apply IH. lia. Qed.
Lemma backwards_none s : forall i, i < length s -> sep_backwards s i = None <-> plain (firstn (S i) s).
Proof.
  unfold plain. induction i as [|i IH]; intros L.
  - destruct s as [|x s]; [cbn in L; lia|]. cbn [sep_backwards nth firstn]. split.
    + destruct (win_sep x) eqn:E; [discriminate|]. intros _. constructor; [|constructor]. rewrite <- win_sep_spec. congruence.
    + intros F. inversion F as [|? ? A _]; subst. destruct (win_sep x) eqn:E; [|reflexivity]. apply win_sep_spec in E. contradiction.
  - cbn [sep_backwards]. assert (Ef : firstn (S (S i)) s = firstn (S i) s ++ [nth (S i) s NUL]).
    { apply firstn_succ. exact L. }
    rewrite Ef. destruct (win_sep (nth (S i) s NUL)) eqn:E.
    + split; [discriminate|]. intros F. apply Forall_app in F as [_ F]. inversion F as [|? ? A _]; subst. apply win_sep_spec in E. contradiction.
    + rewrite IH by lia. split; intros F; [apply Forall_app; split; [exact F|constructor; [rewrite <- win_sep_spec; congruence|constructor]]|apply Forall_app in F as [F _]; exact F].
Qed.
Lemma backwards_some s : forall i n, i < length s -> sep_backwards s i = Some n ->
  exists d c, firstn n s = d ++ [c] /\ separator c /\ n <= S i /\ plain (firstn (S i - n) (skipn n s)).
Proof.
  induction i as [|i IH]; intros n L; cbn [sep_backwards].
  - destruct (win_sep (nth 0 s NUL)) eqn:E; [|discriminate]. intros [= <-]. destruct s as [|x s]; [cbn in L; lia|]. exists [], x. apply win_sep_spec in E. repeat split; auto. constructor.
  - destruct (win_sep (nth (S i) s NUL)) eqn:E.
    + intros [= <-]. exists (firstn (S i) s), (nth (S i) s NUL). apply win_sep_spec in E. split; [|split; [exact E|]].
      * rewrite Nat.add_1_r. apply firstn_succ. exact L.
      * split; [lia|]. rewrite Nat.add_1_r, Nat.sub_diag. constructor.
    + intros H. destruct (IH n ltac:(lia) H) as (d & c & A & B & C & D). exists d, c. split; [exact A|]. split; [exact B|]. split; [lia|]. unfold plain in *.
      replace (S (S i) - n) with (S i - n + 1) by lia. apply Forall_forall. intros x I. rewrite Forall_forall in D.
      apply In_nth_error in I as (k & N). assert (Lk : k < length (firstn (S i - n + 1) (skipn n s))) by (apply nth_error_Some; congruence). rewrite firstn_length, skipn_length in Lk.
      apply nth_firstn in N as [N2 _].
      destruct (Nat.eq_dec k (S i - n)) as [->|Ne].
      * intros Hs. apply win_sep_spec in Hs. enough (x = nth (S i) s NUL) by congruence. clear - N2 C L. symmetry. apply nth_error_nth. rewrite <- N2.
        rewrite nth_skipn. f_equal. lia.
      * apply D. apply nth_error_In with k. apply nth_firstn. split; [exact N2|lia].
Qed.
Lemma folder_unique p f1 f2 : folder_of p f1 -> folder_of p f2 -> f1 = f2.
Proof.
  assert (G : forall f1 f2, length f1 < length f2 -> folder_of p f1 -> folder_of p f2 -> False).
  { intros a c L (d1 & r1 & c1 & E1 & _ & P1) (d2 & r2 & c2 & E2 & H2 & _). rewrite E1 in E2. destruct H2 as [->|(s & -> & Sp)]; [cbn in L; lia|].
    rewrite app_assoc in E2. rewrite app_assoc in E2. apply app_inj_tail in E2 as [E2 _]. rewrite app_length in L. cbn in L.
    assert (Q : nth (length d2) (a ++ r1) NUL = s) by (rewrite E2, <- app_assoc, app_nth2, Nat.sub_diag by lia; reflexivity).
    rewrite app_nth2 in Q by lia. unfold plain in P1. rewrite Forall_forall in P1. apply (P1 s); [|exact Sp]. rewrite <- Q. apply nth_In.
    apply (f_equal (@length Z)) in E2. rewrite !app_length in E2. cbn in E2. lia. }
  intros H1 H2. destruct (Nat.lt_trichotomy (length f1) (length f2)) as [L|[L|L]]; [exfalso; eapply (G f1 f2); eassumption| |exfalso; eapply (G f2 f1); eassumption].
  destruct H1 as (d1 & r1 & c1 & E1 & _), H2 as (d2 & r2 & c2 & E2 & _). rewrite E1 in E2.
  assert (G2 : forall a (t : list Z), firstn (length a) (a ++ t) = a) by (intros a t; rewrite firstn_app, firstn_all, Nat.sub_diag; cbn [firstn]; apply app_nil_r).
  rewrite <- (G2 f1 (r1 ++ [c1])), E2, L. apply G2.
Qed.
Lemma parent_ok p f : folder_of p f -> p <> [] -> parent_length p = OK (match f with [] => None | _ => Some (length f) end).
Proof.
  intros F _. assert (Hl : exists n, length p = S n) by (destruct F as (d & r & c & -> & _); rewrite !app_length; cbn; eexists; rewrite Nat.add_assoc, Nat.add_1_r; reflexivity).
  destruct Hl as (n & Hl). unfold parent_length. rewrite Hl. destruct n as [|n].
  - destruct F as (d & r & c & -> & H & _). rewrite !app_length in Hl. cbn in Hl. destruct f; [reflexivity|cbn in Hl; lia].
  - f_equal. destruct (sep_backwards p n) as [k|] eqn:E.
    + destruct (backwards_some p n k ltac:(lia) E) as (d & c & A & B & C & D). assert (F2 : folder_of p (firstn k p)).
      { exists d, (firstn (S n - k) (skipn k p)), (nth (S n) p NUL). split; [|split; [right; exists c; auto|exact D]]. rewrite <- (firstn_skipn k p) at 1. f_equal.
        rewrite <- (firstn_skipn (S n - k) (skipn k p)) at 1. f_equal. rewrite skipn_skipn. replace (k + (S n - k)) with (S n) by lia. apply skipn_last. exact Hl. }
      rewrite (folder_unique _ _ _ F F2). assert (Lk : length (firstn k p) = k) by (rewrite firstn_length; lia).
      destruct (firstn k p) as [|x t] eqn:Ef; [destruct d; discriminate|]. rewrite Lk. reflexivity.
    + apply backwards_none in E; [|lia]. assert (F2 : folder_of p []).
      { exists [], (firstn (S n) p), (nth (S n) p NUL). split; [|split; [left; reflexivity|exact E]]. cbn [app]. rewrite <- (firstn_skipn (S n) p) at 1. f_equal.
        apply skipn_last. exact Hl. }
      rewrite (folder_unique _ _ _ F F2). reflexivity.
Qed.
Lemma prepend_ok f r name : 0 < length f -> length name <= length f -> exists b, prepend (f ++ r) (length f) name = OK b /\ b = map Some ((f ++ name) ++ [NUL]).
Proof.
  intros Lf Ln. unfold prepend. cbv zeta. unfold copy_within.
  set (b0 := map Some name ++ [Some NUL] ++ repeat None (length f + length name + 1 - (length name + 1))).
  assert (L0 : length b0 = length f + length name + 1) by (unfold b0; rewrite !app_length, map_length, repeat_length; cbn; lia).
  destruct (Nat.ltb_spec (length b0) (length f + length name)); [lia|]. destruct (Nat.ltb_spec (length b0) (0 + length name)); [lia|]. cbn [orb].
  destruct (Nat.ltb_spec (length f) (0 + length name)); [lia|]. rewrite andb_false_r. cbn [andb bind].
  assert (E1 : firstn (length name) (skipn 0 b0) = map Some name).
  { cbn [skipn]. unfold b0. rewrite firstn_app, map_length, Nat.sub_diag. cbn [firstn]. rewrite app_nil_r. rewrite <- (map_length Some name) at 1. apply firstn_all. }
  rewrite E1. unfold copy_front. assert (Lb : length (firstn (length f) b0 ++ map Some name ++ skipn (length f + length name) b0) = length f + length name + 1).
  { rewrite !app_length, firstn_length, skipn_length, map_length. lia. }
  rewrite Lb. destruct (Nat.ltb_spec (length f + length name + 1) (length f)); [lia|]. rewrite app_length.
  destruct (Nat.ltb_spec (length f + length r + 1) (length f)); [lia|]. cbn [orb bind].
  assert (E2 : firstn (length f) ((f ++ r) ++ [NUL]) = f) by (rewrite <- app_assoc, firstn_app, firstn_all, Nat.sub_diag; cbn [firstn]; apply app_nil_r). rewrite E2.
  assert (E3 : skipn (length f) (firstn (length f) b0 ++ map Some name ++ skipn (length f + length name) b0) = map Some name ++ skipn (length f + length name) b0).
  { rewrite skipn_app, skipn_all2 by (rewrite firstn_length; lia). rewrite firstn_length. replace (length f - Nat.min (length f) (length b0)) with 0 by lia. reflexivity. }
  rewrite E3. unfold put. set (b1 := map Some f ++ map Some name ++ skipn (length f + length name) b0).
  assert (L1 : length b1 = length f + length name + 1) by (unfold b1; rewrite !app_length, !map_length, skipn_length; lia).
  destruct (Nat.ltb_spec (length f + length name) (length b1)); [|lia]. eexists. split; [reflexivity|]. assert (E4 : b1 = map Some (f ++ name) ++ skipn (length f + length name) b0) by (rewrite map_app, <- app_assoc; reflexivity). rewrite E4.
  rewrite firstn_app, skipn_app, map_length, app_length. rewrite firstn_all2 by (rewrite map_length, app_length; lia). rewrite Nat.sub_diag. cbn [firstn]. rewrite app_nil_r.
  rewrite skipn_all2 by (rewrite map_length, app_length; lia). rewrite skipn_all2 by (rewrite skipn_length; lia). cbn [app]. rewrite !map_app. reflexivity.
Qed.
Lemma prepend_overlap p n name : 0 < length name -> n < length name -> prepend p n name = UB.
Proof.
  intros L1 L2. unfold prepend. cbv zeta. unfold copy_within. match goal with |- context [if ?c then UB else _] => destruct c; [reflexivity|] end.
  destruct (Nat.ltb_spec 0 (length name)); [|lia]. destruct (Nat.ltb_spec n (0 + length name)); [|lia]. destruct (Nat.ltb_spec 0 (n + length name)); [|lia]. reflexivity.
Qed.
