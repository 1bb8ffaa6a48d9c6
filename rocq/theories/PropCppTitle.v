(** * C75: titles through dro::D3plot *)
From Verif Require Import CBase CBaseFacts BinModel D3BufModel D3BufSpec D3Model D3Spec D3OpenProofs D3StateProofs D3Sample D3ReadModel D3ReadSpec D3ReadProofs PropD3Read D3LayerProofs D3Rich CppPartNodesModel PropCppPartNodes CppTitleModel.
Open Scope Z_scope.

(** [r] is [t] without the blanks at its end. *)
Definition trimmed (t r : list Z) : Prop := (exists n, t = r ++ repeat SPACE n) /\ forall l, r <> l ++ [SPACE].

Lemma first_blank_ok w : forall j rest, ~ In SPACE w -> first_blank (w ++ SPACE :: rest) j = OK (j + length w)%nat.
Proof.
  induction w as [|x w IH]; intros j rest N; cbn [app first_blank length].
  - rewrite Z.eqb_refl. f_equal. lia.
  - destruct (Z.eqb_spec x SPACE) as [->|_]; [exfalso; apply N; left; reflexivity|]. rewrite IH by (intros I; apply N; right; exact I). f_equal. lia.
Qed.
Lemma first_blank_UB w : forall j, ~ In SPACE w -> first_blank w j = UB.
Proof.
  induction w as [|x w IH]; intros j N; cbn [first_blank]; [reflexivity|].
  destruct (Z.eqb_spec x SPACE) as [->|_]; [exfalso; apply N; left; reflexivity|]. apply IH. intros I. apply N. right. exact I.
Qed.
Lemma trim_ok w rest : ~ In SPACE w -> trim (w ++ SPACE :: rest) = OK w.
Proof. intros N. unfold trim. rewrite <- app_assoc. cbn [app]. rewrite first_blank_ok by exact N. cbn [bind plus]. rewrite firstn_app, firstn_all, Nat.sub_diag, firstn_O, app_nil_r. reflexivity. Qed.
Lemma trim_UB w : ~ In SPACE w -> trim w = UB.
Proof. intros N. unfold trim. rewrite first_blank_UB; [reflexivity|]. intros I. apply in_app_iff in I. destruct I as [I|[I|[]]]; [exact (N I)|discriminate]. Qed.
Lemma word_trimmed w n : ~ In SPACE w -> trimmed (w ++ repeat SPACE n) w.
Proof. intros N. split; [eauto|]. intros l ->. apply N. apply in_app_iff. right. left. reflexivity. Qed.

Lemma trim_all_ok : forall ws titles, Forall2 (fun w t => ~ In SPACE w /\ exists n, t = w ++ repeat SPACE (S n)) ws titles -> trim_all titles = OK ws.
Proof. induction 1 as [|w t ws titles (N & n & ->) _ IH]; [reflexivity|]. cbn [trim_all repeat]. rewrite (trim_ok w _ N). cbn [bind]. rewrite IH. reflexivity. Qed.

(** A title that is one word followed by blanks is returned without them. *)
Theorem C75_title_partial : forall b titles states pl w n, opened b titles states pl ->
  bytes_from b 0 (10 * d_ws b) = w ++ repeat SPACE (S n) -> ~ In SPACE w ->
  hands_back b titles states (cpp_read_title pl) w /\ trimmed (bytes_from b 0 (10 * d_ws b)) w.
Proof.
  intros b titles states pl w n O E N. destruct (proj1 (C57_title_run_time b titles states pl O)) as (pl' & Q & Er & O'). split; [|rewrite E; apply word_trimmed; exact N].
  exists pl'. split; [|exact O']. unfold cpp_read_title, or_throw. rewrite Q. cbn [bind]. rewrite Er, E. cbn [repeat]. rewrite (trim_ok w _ N). reflexivity.
Qed.
Theorem C75_part_titles_partial : forall b titles states pl ws, opened b titles states pl -> titles <> 0 -> 0 < cval b NMMAT <= wd b (titles - 1) ->
  Forall2 (fun w t => ~ In SPACE w /\ exists n, t = w ++ repeat SPACE (S n)) ws (each (cval b NMMAT) (title_bytes b titles)) ->
  hands_back b titles states (cpp_read_part_titles pl) ws /\ Forall2 (fun w t => trimmed t w) ws (each (cval b NMMAT) (title_bytes b titles)).
Proof.
  intros b titles states pl ws O Nz Le F. destruct (C57_part_titles b titles states pl O Nz Le) as (pl' & Q & Er & O'). split.
  - exists pl'. split; [|exact O']. unfold cpp_read_part_titles, or_throw. rewrite Q. cbn [bind]. rewrite Er. rewrite (trim_all_ok _ _ F). reflexivity.
  - clear - F. revert F. generalize (each (cval b NMMAT) (title_bytes b titles)). intros l F. induction F as [|w t ws' ts (N & n & ->) _ IH]; [constructor|]. constructor; [apply word_trimmed; exact N|exact IH].
Qed.

(** A title is returned only if the C function reported no error; otherwise its
    error is thrown. *)
Theorem C75_throws : forall pl pl', (forall t, cpp_read_title pl = OK (pl', Returned t) -> pl_err pl' = None) /\ (forall e, cpp_read_title pl = OK (pl', Throws e) -> pl_err pl' = Some e) /\
  (forall t, cpp_read_part_titles pl = OK (pl', Returned t) -> pl_err pl' = None) /\ (forall e, cpp_read_part_titles pl = OK (pl', Throws e) -> pl_err pl' = Some e).
Proof.
  intros pl pl'. unfold cpp_read_title, cpp_read_part_titles, or_throw. split; [|split; [|split]].
  - intros t. destruct (read_title pl) as [(p1, x)| | ]; cbn [bind]; try discriminate. destruct (pl_err p1) eqn:E; [discriminate|]. destruct (trim x); cbn [bind]; try discriminate. intros [= -> _]. exact E.
  - intros t. destruct (read_title pl) as [(p1, x)| | ]; cbn [bind]; try discriminate. destruct (pl_err p1) eqn:E; [intros [= -> ->]; exact E|]. destruct (trim x); discriminate.
  - intros t. destruct (read_part_titles pl) as [(p1, x)| | ]; cbn [bind]; try discriminate. destruct (pl_err p1) eqn:E; [discriminate|]. destruct (trim_all x); cbn [bind]; try discriminate. intros [= -> _]. exact E.
  - intros t. destruct (read_part_titles pl) as [(p1, x)| | ]; cbn [bind]; try discriminate. destruct (pl_err p1) eqn:E; [intros [= -> ->]; exact E|]. destruct (trim_all x); discriminate.
Qed.

(** What is missing: a title of several words is cut behind the first one ... *)
Theorem C75_cut_refuted : forall b titles states pl w rest x, opened b titles states pl ->
  bytes_from b 0 (10 * d_ws b) = w ++ SPACE :: rest -> ~ In SPACE w -> In x rest -> x <> SPACE ->
  hands_back b titles states (cpp_read_title pl) w /\ ~ trimmed (bytes_from b 0 (10 * d_ws b)) w.
Proof.
  intros b titles states pl w rest x O E N I X. destruct (proj1 (C57_title_run_time b titles states pl O)) as (pl' & Q & Er & O'). split.
  - exists pl'. split; [|exact O']. unfold cpp_read_title, or_throw. rewrite Q. cbn [bind]. rewrite Er, E. rewrite (trim_ok w _ N). reflexivity.
  - rewrite E. intros ((n & Q') & _). apply app_inv_head in Q'. destruct n as [|n]; [discriminate|]. cbn [repeat] in Q'. injection Q' as ->. apply repeat_spec in I. exact (X I).
Qed.
(** ... and the end of a title without any blank is looked for behind its
    memory. *)
Theorem C75_no_blank_refuted : forall b titles states pl, opened b titles states pl -> ~ In SPACE (bytes_from b 0 (10 * d_ws b)) ->
  cpp_read_title pl = UB.
Proof.
  intros b titles states pl O N. destruct (proj1 (C57_title_run_time b titles states pl O)) as (pl' & Q & Er & O').
  unfold cpp_read_title, or_throw. rewrite Q. cbn [bind]. rewrite Er. rewrite (trim_UB _ N). reflexivity.
Qed.
(** The same for the title of a part. *)
Theorem C75_part_no_blank_refuted : forall b titles states pl i, opened b titles states pl -> titles <> 0 -> 0 < cval b NMMAT <= wd b (titles - 1) ->
  0 <= i < cval b NMMAT -> ~ In SPACE (title_bytes b titles i) -> (forall j, 0 <= j < i -> In SPACE (title_bytes b titles j)) -> cpp_read_part_titles pl = UB.
Proof.
  intros b titles states pl i O Nz Le Hi N F. destruct (C57_part_titles b titles states pl O Nz Le) as (pl' & Q & Er & O').
  unfold cpp_read_part_titles, or_throw. rewrite Q. cbn [bind]. rewrite Er. replace (trim_all (each (cval b NMMAT) (title_bytes b titles))) with (@UB (list (list Z))); [reflexivity|]. symmetry.
  unfold each. assert (G : forall n s, (s <= Z.to_nat i < s + n)%nat -> trim_all (map (fun k => title_bytes b titles (Z.of_nat k)) (seq s n)) = UB).
  { induction n as [|n IH]; intros s Hs; [lia|]. cbn [seq map trim_all]. destruct (Nat.eq_dec s (Z.to_nat i)) as [E|E].
    - rewrite (trim_UB (title_bytes b titles (Z.of_nat s))); [reflexivity|]. rewrite E, Z2Nat.id by lia. exact N.
    - specialize (F (Z.of_nat s) ltac:(lia)). destruct (in_split _ _ F) as (l1 & l2 & Es).
      assert (X : exists w rest, title_bytes b titles (Z.of_nat s) = w ++ SPACE :: rest /\ ~ In SPACE w).
      { clear - F. induction (title_bytes b titles (Z.of_nat s)) as [|x t IH]; [destruct F|]. destruct (Z.eq_dec x SPACE) as [->|Nx]; [exists [], t; split; [reflexivity|intros []]|].
        destruct IH as (w & rest & -> & Nw); [destruct F as [F|F]; [congruence|exact F]|]. exists (x :: w), rest. split; [reflexivity|]. intros [I|I]; [congruence|exact (Nw I)]. }
      destruct X as (w & rest & -> & Nw). rewrite (trim_ok w rest Nw). cbn [bind]. rewrite IH by lia. reflexivity. }
  apply G. lia.
Qed.

(** A plot with the title "ab". *)
Definition titled (second : Z) : list (Z * Z) := [(0, 538993249); (1, second); (2, 538976288); (3, 538976288); (4, 538976288); (5, 538976288); (6, 538976288); (7, 538976288); (8, 538976288); (9, 538976288)].
Definition rich_titled : dbuf := rich (titled 538976288) 169.
Lemma rich_titled_opened : exists pl, opened rich_titled 148 [189; 358] pl.
Proof. change [189; 358] with [189; 189 + 169]. prove_opened rich_titled 169. Qed.
Example C75_example : exists pl, opened rich_titled 148 [189; 358] pl /\ bytes_from rich_titled 0 (10 * d_ws rich_titled) = bs "ab" ++ repeat SPACE 38 /\ ~ In SPACE (bs "ab").
Proof. destruct rich_titled_opened as (pl & O). exists pl. split; [exact O|]. split; [vm_compute; reflexivity|]. cbn. intuition discriminate. Qed.
Definition blanks : list Z := repeat 538976288 17.
Definition rich_parts : dbuf :=
  plot_of [rich_words [] ++ rich_geometry ++ rich_ids ++ [EOF32] ++ ([90001; 2; 41] ++ 538993249 :: blanks ++ [42] ++ 538976353 :: blanks) ++ [EOF32; 0; 0]; rich_state 169 1000 ++ rich_state 169 2000 ++ [EOF32; 0]].
Lemma rich_parts_opened : exists pl, opened rich_parts 148 [189; 358] pl.
Proof. change [189; 358] with [189; 189 + 169]. prove_opened rich_parts 169. Qed.
Example C75_part_example : exists pl, opened rich_parts 148 [189; 358] pl /\ 0 < cval rich_parts NMMAT <= wd rich_parts (148 - 1) /\
  Forall2 (fun w t => ~ In SPACE w /\ exists n, t = w ++ repeat SPACE (S n)) [bs "ab"; bs "a"] (each (cval rich_parts NMMAT) (title_bytes rich_parts 148)).
Proof.
  destruct rich_parts_opened as (pl & O). exists pl. split; [exact O|]. split; [split; [vm_compute; reflexivity|vm_compute; discriminate]|].
  match goal with |- Forall2 _ _ ?l => let v := eval vm_compute in l in change l with v end.
  constructor; [split; [cbn; intuition discriminate|exists 69%nat; reflexivity]|]. constructor; [split; [cbn; intuition discriminate|exists 70%nat; reflexivity]|]. constructor.
Qed.
(** "ab  cd ..." is cut, a title of NULs (or 40 letters) is overrun. *)
Example C75_cut_example : exists rest, (exists pl, opened (rich (titled 538993763) 169) 148 [189; 358] pl) /\
  bytes_from (rich (titled 538993763) 169) 0 (10 * d_ws (rich (titled 538993763) 169)) = bs "ab" ++ SPACE :: rest /\ In 99 rest.
Proof.
  eexists. split; [|split].
  - change [189; 358] with [189; 189 + 169]. prove_opened (rich (titled 538993763) 169) 169.
  - vm_compute. reflexivity.
  - cbn. tauto.
Qed.
Example C75_no_blank_example : exists pl, opened rich3 148 [189; 358] pl /\ ~ In SPACE (bytes_from rich3 0 (10 * d_ws rich3)) /\ ~ In SPACE (title_bytes rich3 148 0) /\
  0 < cval rich3 NMMAT <= wd rich3 (148 - 1).
Proof.
  destruct rich3_opened as (pl & O). exists pl. split; [exact O|].
  split; [|split; [|split; [vm_compute; reflexivity|vm_compute; discriminate]]].
  all: match goal with |- ~ In _ ?l => let v := eval vm_compute in l in change l with v end; cbn; intuition discriminate.
Qed.
Print Assumptions C75_throws.
