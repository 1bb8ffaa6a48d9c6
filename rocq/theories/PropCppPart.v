(** * C72, C73: dro::D3plotPart *)
From Verif Require Import CBase CBaseFacts CppArrayModel CppArraySpec CppArrayProofs OwnModel OwnProofs CppPartModel CppPartSpec CppPartProofs.

(** ** C72: parts are values *)

(** Whatever a program does with parts, as long as it copies no part that has
    thick shells and copies no part onto itself, nothing undefined happens and
    it sees what independent values would show. *)
Theorem C72_values_partial : forall prog rs v', pvrun [] prog rs v' -> all_along copy_fits [] prog ->
  exists s', prun store0 prog = OK (s', rs).
Proof.
  intros prog rs v' R F. destruct (prun_ok prog store0 [] rs v' (inv_store0 _ _) R F) as (s' & Q & _). eauto.
Qed.

(** The value semantics covers every operation on parts that are alive. *)
Theorem C72_all_operations : forall v j c, nth_error v j = Some (Some c) ->
  (exists r v', pvstep v (PMoveNew j) r v') /\ (exists r v', pvstep v (PCopyNew j) r v') /\ (exists r v', pvstep v (PDestroy j) r v') /\
  (forall i d, nth_error v i = Some (Some d) -> exists r v', pvstep v (PCopyTo i j) r v') /\
  (forall i d, nth_error v i = Some (Some d) -> i <> j -> exists r v', pvstep v (PMoveTo i j) r v') /\
  (forall f, f < 8 -> (exists r v', pvstep v (PSize j f) r v') /\ (forall k, exists r v', pvstep v (PGet j f k) r v') /\ (forall k x, exists r v', pvstep v (PSet j f k x) r v')).
Proof.
  intros v j c N. split; [|split; [|split; [|split; [|split]]]].
  - eexists _, _. eapply P_move_new; eauto.
  - eexists _, _. eapply P_copy_new; eauto.
  - eexists _, _. eapply P_destroy; eauto.
  - intros i d Ni. eexists _, _. eapply P_copy_to; eauto.
  - intros i d Ni Ne. eexists _, _. eapply P_move_to; eauto.
  - intros f Lf. split; [eexists _, _; eapply P_size; eauto|]. split.
    + intros k. destruct (nth_error (elements c f) k) as [x|] eqn:Q; eexists _, _; [eapply P_get; eauto|]. eapply P_get_range; eauto. apply nth_error_None. exact Q.
    + intros k x. destruct (Nat.lt_ge_cases k (length (elements c f))) as [L|L]; eexists _, _; [eapply P_set; eauto|eapply P_set_range; eauto].
Qed.

Lemma free_all_app a : forall h b, h_free_all h (a ++ b) = (do h <- h_free_all h a; h_free_all h b).
Proof. induction a as [|p a IH]; intros h b; [reflexivity|]. cbn [app h_free_all]. destruct (h_free_opt h p); cbn [bind]; auto. Qed.

(** What a program sees of a part that was read and copied once. *)
Lemma adopt_copy c : is_part c -> exists ext p, prep ext p c /\ (forall b, In b (pblocks p) -> b < length ext) /\
  (forall b x, nth_error ext b = Some x -> In b (pblocks p)) /\
  (forall f, p_count p f = 0 -> p_ptr p f = None) /\
  pstep store0 (PAdopt c) = OK ({| st_heap := ext; st_objs := [Some p] |}, Nothing) /\
  pstep {| st_heap := ext; st_objs := [Some p] |} (PCopyNew 0) = OK ({| st_heap := ext ++ copy_ext p c; st_objs := [Some p; Some (copied ext p)] |}, Nothing).
Proof.
  intros P. destruct (adopt_ok [] c P) as (ext & p & E & R & F & C & Ti). cbn [app] in *. exists ext, p. split; [exact R|]. split; [|split; [|split; [exact Ti|split]]].
  - intros b I. destruct (prep_live _ _ _ _ R I) as (x & Q). eapply nth_lt; eauto.
  - intros b x Q. exact (C b x Q).
  - cbn [pstep store0 st_heap]. rewrite E. reflexivity.
  - cbn [pstep get_obj st_objs st_heap aget nth_error bind]. rewrite (part_copy_ok _ _ _ R). reflexivity.
Qed.

(** What is missing: a copy of a part with thick shells shares their indices
    with the original; writing to one changes the other, and destroying both
    frees them twice. *)
Theorem C72_copy_shares_refuted : forall c, is_part c -> elements c THICK_IDS <> [] ->
  prun store0 [PAdopt c; PCopyNew 0; PDestroy 0; PDestroy 1] = UB /\
  forall x, exists s, prun store0 [PAdopt c; PCopyNew 0; PSet 1 THICK_INDICES 0 x; PGet 0 THICK_INDICES 0] = OK (s, [Nothing; Nothing; Nothing; Value x]).
Proof.
  intros c P T. destruct (adopt_copy c P) as (ext & p & R & B & C & Ti & S1 & S2). pose proof R as (Lp & Lc & Rf & D & _).
  assert (L5 : 0 < length (elements c THICK_INDICES)).
  { pose proof (proj2 P 1 ltac:(lia)) as Q. change (4 + 1) with THICK_INDICES in Q. change 1 with THICK_IDS in Q at 1. destruct (elements c THICK_IDS); [congruence|]. cbn [length] in Q. lia. }
  destruct (Rf THICK_INDICES ltac:(cbv; lia)) as (E5 & N5). destruct (p_ptr p THICK_INDICES) as [[b o]|] eqn:P5; [|rewrite N5 in L5; cbn in L5; lia]. destruct N5 as (-> & N5).
  pose proof (nth_lt _ _ _ N5) as Lb.
  assert (Ib : In b (pblocks p)) by (apply in_pblocks; exists THICK_INDICES, 0; split; [rewrite Lp; cbv; lia|exact P5]).
  unfold prun. split.
  - cbn [exec]. rewrite S1. cbn [bind]. rewrite S2. cbn [bind]. cbn [pstep get_obj st_objs st_heap aget nth_error bind].
    assert (R' : prep (ext ++ copy_ext p c) p c).
    { apply (prep_frame ext); [exact R|]. intros b' I'. apply nth_error_app1. apply B. exact I'. }
    destruct (destroy_ok _ _ _ R') as (h & -> & F & G). cbn [bind put_obj st_objs aset]. cbn [pstep get_obj st_objs st_heap aget nth_error bind].
    unfold part_destroy. unfold copied, p_ptr. cbn [p_data nth SOLID_IDS THICK_IDS BEAM_IDS SHELL_IDS SOLID_INDICES THICK_INDICES BEAM_INDICES SHELL_INDICES].
    change (nth 5 (p_data p) None) with (p_ptr p THICK_INDICES). rewrite P5.
    match goal with |- context [h_free_all h ?l] => replace l with (firstn 5 l ++ skipn 5 l) by reflexivity end. cbn [firstn skipn].
    rewrite free_all_app.
    destruct (free_all_ok [Some (length ext, 0); Some (length ext + 5, 0); Some (length ext + 2, 0); Some (length ext + 3, 0); Some (length ext + 4, 0)] h) as (h' & -> & _ & _ & G').
    + cbn [ptr_blocks flat_map app]. repeat (constructor; [cbn [In]; lia|]). constructor.
    + intros b' o' I'. assert (Z : o' = 0 /\ exists k, b' = length ext + k /\ k < 8) by (cbn [In] in I'; destruct I' as [Q|[Q|[Q|[Q|[Q|[]]]]]]; injection Q as <- <-; (split; [reflexivity|]); [exists 0|exists 5|exists 2|exists 3|exists 4]; lia).
      destruct Z as (-> & k & -> & Lk). split; [reflexivity|]. rewrite G by (intros I0; apply B in I0; lia). rewrite nth_error_app2 by lia. replace (length ext + k - length ext) with k by lia.
      unfold copy_ext. do 8 (destruct k as [|k]; [eexists; reflexivity|]). lia.
    + cbn [bind h_free_all h_free_opt]. unfold h_free. cbn [fst snd].
      rewrite (proj2 (aget_OK h' b None)); [reflexivity|]. rewrite G'; [apply F; exact Ib|]. cbn [ptr_blocks flat_map app In]. intros Q. lia.
  - intros x. cbn [exec]. rewrite S1. cbn [bind]. rewrite S2. cbn [bind]. cbn [pstep get_obj st_objs st_heap aget nth_error bind].
    unfold arr_set, part_view. cbn [a_size a_data]. rewrite get_range. unfold copied at 1. unfold p_count at 1. cbn [p_num]. fold (p_count p THICK_INDICES). rewrite E5.
    replace (0 <? length (elements c THICK_INDICES)) with true by (symmetry; apply Nat.ltb_lt; exact L5). cbn [negb].
    unfold copied at 1, p_ptr at 1. cbn [p_data nth THICK_INDICES]. change (p_ptr p 5) with (p_ptr p THICK_INDICES). rewrite P5. unfold h_write.
    assert (N5' : nth_error (ext ++ copy_ext p c) b = Some (Some (elements c THICK_INDICES))) by (rewrite nth_error_app1 by exact Lb; exact N5).
    rewrite (proj2 (aget_OK _ _ _) N5'). cbn [bind plus]. rewrite aset_replace by exact L5. cbn [bind]. rewrite aset_replace by (apply nth_lt in N5'; exact N5'). cbn [bind].
    rewrite (view_destroy _ (copied ext p) THICK_INDICES). cbn [bind].
    unfold get_obj. cbn [st_objs st_heap aget nth_error bind]. unfold arr_get. cbn [a_size a_data]. rewrite get_range, E5.
    replace (0 <? length (elements c THICK_INDICES)) with true by (symmetry; apply Nat.ltb_lt; exact L5). cbn [negb]. rewrite P5.
    rewrite (read_holds _ b (replace (elements c THICK_INDICES) 0 x) 0 x); [cbn [bind arr_destroy a_data a_del]; eauto|apply nth_replace_eq; apply nth_lt in N5'; exact N5'|apply nth_replace_eq; exact L5].
Qed.

(** A part assigned to itself loses its elements: copied, they become
    uninitialised; moved, they are gone. *)
Theorem C72_self_assignment_refuted : forall c, is_part c -> elements c SOLID_IDS <> [] ->
  (exists s, prun store0 [PAdopt c; PCopyTo 0 0; PGet 0 SOLID_IDS 0] = OK (s, [Nothing; Nothing; Value JUNK])) /\
  (exists s, prun store0 [PAdopt c; PMoveTo 0 0; PSize 0 SOLID_IDS] = OK (s, [Nothing; Nothing; Size 0])).
Proof.
  intros c P N. destruct (adopt_copy c P) as (ext & p & R & B & C & Ti & S1 & S2). pose proof R as (Lp & Lc & Rf & D & _).
  destruct (Rf SOLID_IDS ltac:(cbv; lia)) as (E0 & _). assert (Ln : 0 < p_count p SOLID_IDS) by (rewrite E0; destruct (elements c SOLID_IDS); [congruence|cbn; lia]).
  unfold prun. split.
  - cbn [exec]. rewrite S1. cbn [bind]. cbn [pstep get_obj st_objs st_heap aget nth_error bind Nat.eqb]. unfold part_copy_self, h_malloc. cbn [bind put_obj st_objs aset].
    cbn [pstep get_obj st_objs st_heap aget nth_error bind]. unfold arr_get. rewrite view_destroy. unfold part_view. cbn [a_size a_data]. rewrite get_range. unfold p_count at 1. cbn [p_num]. fold (p_count p SOLID_IDS).
    replace (0 <? p_count p SOLID_IDS) with true by (symmetry; apply Nat.ltb_lt; exact Ln). cbn [negb]. unfold p_ptr at 1. cbn [p_data nth SOLID_IDS].
    erewrite (read_holds _ (length ext) (malloc (p_count p SOLID_IDS)) 0 JUNK); [cbn [bind arr_destroy a_data a_del]; eauto| |].
    + rewrite <- !app_assoc. rewrite nth_error_app2, Nat.sub_diag by lia. reflexivity.
    + unfold malloc. destruct (p_count p SOLID_IDS); [lia|reflexivity].
  - cbn [exec]. rewrite S1. cbn [bind]. eexists. reflexivity.
Qed.

Example C72_case : exists s, prun store0 [PAdopt [[10; 11]; []; [20]; []; [0; 1]; []; [0]; []]%Z; PCopyNew 0; PSet 1 SOLID_IDS 0 99%Z; PGet 0 SOLID_IDS 0; PGet 1 SOLID_IDS 0; PMoveNew 0; PSize 0 BEAM_IDS; PGet 2 BEAM_INDICES 0; PGet 2 SHELL_IDS 0; PDestroy 0; PDestroy 1; PDestroy 2] =
  OK (s, [Nothing; Nothing; Nothing; Value 10; Value 99; Nothing; Size 0; Value 0; Thrown; Nothing; Nothing; Nothing]%Z).
Proof. eexists. vm_compute. reflexivity. Qed.
Example C72_case_hypotheses : exists v, pvrun [] [PAdopt [[10; 11]; []; [20]; []; [0; 1]; []; [0]; []]%Z; PCopyNew 0; PSet 1 SOLID_IDS 0 99%Z] [Nothing; Nothing; Nothing] v /\
  all_along copy_fits [] [PAdopt [[10; 11]; []; [20]; []; [0; 1]; []; [0]; []]%Z; PCopyNew 0; PSet 1 SOLID_IDS 0 99%Z].
Proof.
  set (c := [[10; 11]; []; [20]; []; [0; 1]; []; [0]; []]%Z).
  assert (P : is_part c) by (split; [reflexivity|]; intros [|[|[|[|f]]]] L; try reflexivity; lia).
  assert (S1 : pvstep [] (PAdopt c) Nothing [Some c]) by (apply (P_adopt [] c P)).
  assert (S2 : pvstep [Some c] (PCopyNew 0) Nothing [Some c; Some c]) by (apply (P_copy_new [Some c] 0 c); reflexivity).
  assert (S3 : pvstep [Some c; Some c] (PSet 1 SOLID_IDS 0 99%Z) Nothing [Some c; Some (replace c 0 [99; 11]%Z)]) by (apply (P_set [Some c; Some c] 1 SOLID_IDS 0 99%Z c); [reflexivity|cbv; lia|cbv; lia]).
  eexists. split.
  - eapply PR_step; [exact S1|]. eapply PR_step; [exact S2|]. eapply PR_step; [exact S3|]. apply PR_done.
  - eapply PA_step; [|exact S1|]; [split; [intros j d [Q|(i & Q)]; discriminate|discriminate]|].
    eapply PA_step; [|exact S2|]; [split; [intros j d [Q|(i & Q)]; [|discriminate]; injection Q as <-; intros [= <-]; reflexivity|discriminate]|].
    eapply PA_step; [|exact S3|apply PA_done]; split; [intros j d [Q|(i & Q)]; discriminate|discriminate].
Qed.
(** A part with thick shells. *)
Example C72_case_thick : prun store0 [PAdopt [[]; [7]; []; []; []; [3]; []; []]%Z; PCopyNew 0; PDestroy 0; PDestroy 1] = UB /\
  prun store0 [PAdopt [[]; [7]; []; []; []; [3]; []; []]%Z; PCopyNew 0; PDestroy 0; PGet 1 THICK_INDICES 0] = UB.
Proof. split; vm_compute; reflexivity. Qed.

(** ** C73: the memory of parts *)

(** Without copies and without assignments onto a part that has elements, all
    memory has been given back when the parts are destroyed. *)
Theorem C73_no_leak_partial : forall prog rs v', pvrun [] prog rs v' -> all_along no_copy_no_overwrite [] prog -> Forall (fun o => o = None) v' ->
  exists s', prun store0 prog = OK (s', rs) /\ forall b, ~ live s' b.
Proof.
  intros prog rs v' R N F. destruct (prun_ok prog store0 [] rs v' (inv_store0 _ _) R (fits_of_no_copy _ _ N)) as (s' & Q & I & C). exists s'. split; [exact Q|].
  eapply all_gone; eauto. apply C; [apply covered_store0| |exact N]. intros j p f Z. destruct j; discriminate.
Qed.

(** Every copy loses a block, even of a part without thick shells. *)
Theorem C73_copy_leaks_refuted : forall c, is_part c -> elements c THICK_IDS = [] ->
  exists s b, prun store0 [PAdopt c; PCopyNew 0; PDestroy 0; PDestroy 1] = OK (s, [Nothing; Nothing; Nothing; Nothing]) /\ live s b.
Proof.
  intros c P T. destruct (adopt_copy c P) as (ext & p & R & B & C & Ti & S1 & S2).
  unfold prun. cbn [exec]. rewrite S1. cbn [bind]. rewrite S2. cbn [bind]. cbn [pstep get_obj st_objs st_heap aget nth_error bind].
  destruct (copied_rep _ _ _ R T) as (Rc & Fc).
  assert (R' : prep (ext ++ copy_ext p c) p c) by (apply (prep_frame ext); [exact R|]; intros b' I'; apply nth_error_app1; apply B; exact I').
  destruct (destroy_ok _ _ _ R') as (h & -> & F & G). cbn [bind put_obj st_objs aset]. cbn [pstep get_obj st_objs st_heap aget nth_error bind].
  assert (Rc' : prep h (copied ext p) c) by (apply (prep_frame (ext ++ copy_ext p c)); [exact Rc|]; intros b' I'; apply G; intros I0; apply B in I0; apply Fc in I'; lia).
  destruct (destroy_ok _ _ _ Rc') as (h2 & -> & F2 & G2). cbn [bind put_obj st_objs aset]. eexists _, (length ext + 1). split; [reflexivity|].
  exists (malloc (p_count p 1)). cbn [st_heap]. rewrite G2; [rewrite G|].
  - rewrite nth_error_app2 by lia. replace (length ext + 1 - length ext) with 1 by lia. reflexivity.
  - intros I0. apply B in I0. lia.
  - pose proof R as (_ & _ & _ & _ & T5). unfold pblocks, copied. cbn [p_data]. change (p_ptr p 5) with (p_ptr p THICK_INDICES). rewrite (T5 T). cbn [ptr_blocks flat_map app In]. lia.
Qed.

(** An assignment loses the arrays of its target. *)
Theorem C73_assignment_leaks_refuted : forall c d f x, is_part c -> is_part d -> f < 8 -> nth_error (elements c f) 0 = Some x ->
  exists s b, prun store0 [PAdopt c; PAdopt d; PMoveTo 0 1; PDestroy 0; PDestroy 1] = OK (s, [Nothing; Nothing; Nothing; Nothing; Nothing]) /\ live s b.
Proof.
  intros c d f x P Pd Lf N. destruct (adopt_copy c P) as (ext & p & R & B & C & Ti & S1 & _). pose proof R as (Lp & Lc & Rf & D & _).
  destruct (adopt_ok ext d Pd) as (ext2 & q & E & Rq & Fq & Cq & _).
  unfold prun. cbn [exec]. rewrite S1. cbn [bind]. cbn [pstep st_heap]. rewrite E. unfold new_obj, get_obj, put_obj. cbn [bind st_objs app]. cbn [pstep st_objs st_heap aget nth_error bind Nat.eqb part_move aset].
  destruct (destroy_ok _ _ _ Rq) as (h & -> & F & G). cbn [bind]. cbn [pstep get_obj st_objs st_heap aget nth_error bind Nat.eqb part_move put_obj aset].
  destruct (destroy_ok h part_zero no_elements (prep_zero h)) as (h2 & -> & _ & G2). cbn [bind]. cbn [put_obj st_objs aset bind].
  destruct (Rf f Lf) as (_ & Nf). destruct (p_ptr p f) as [[b o]|] eqn:Pf; [|rewrite Nf in N; discriminate]. destruct Nf as (-> & Nf).
  eexists _, b. split; [reflexivity|]. exists (elements c f). cbn [st_heap]. rewrite G2 by (intros Z0; destruct Z0). pose proof (nth_lt _ _ _ Nf). rewrite G; [rewrite nth_error_app1 by assumption; exact Nf|].
  intros I0. apply Fq in I0. lia.
Qed.

Example C73_case : exists s, prun store0 [PAdopt [[10; 11]; [5]; [20]; []; [0; 1]; [2]; [0]; []]%Z; PMoveNew 0; PMoveTo 0 1; PMoveNew 0; PGet 2 THICK_INDICES 0; PDestroy 2; PDestroy 0; PDestroy 1] =
  OK (s, [Nothing; Nothing; Nothing; Nothing; Value 2; Nothing; Nothing; Nothing]%Z) /\ Forall (fun b => b = None) (st_heap s) /\ length (st_heap s) = 6.
Proof. eexists. split; [vm_compute; reflexivity|]. split; [repeat constructor|reflexivity]. Qed.
