(** * Property C107: the run time as a date *)
From Verif Require Import CBase CBaseFacts BinModel D3BufModel D3BufSpec D3Model D3Spec D3CurProofs D3OpenProofs D3StateProofs D3Sample D3ReadModel D3ReadSpec D3ReadProofs PropD3Open PropD3Read D3Rich D3WriteSpec D3WriteProofs PropD3Write CppPartNodesModel PropCppPartNodes CppTimeModel.
Open Scope Z_scope.

(** Both C functions fail for the same plots, with the same error, and have the same effect. *)
Theorem C107_same_errors : forall T (localtime : Z -> option T) pl,
  match read_epoch_run_time pl, read_run_time localtime pl with
  | OK (pl1, t), OK (pl2, r) => pl1 = pl2 /\ (pl_err pl1 = None -> r = localtime t) /\ (pl_err pl1 <> None -> r = None /\ t = 0)
  | UB, UB => True | OOF, OOF => True | _, _ => False
  end.
Proof.
  intros T lt pl. unfold read_epoch_run_time, read_run_time. destruct (read_at _ _ _) as [[pl' d]| |] eqn:E; cbn [bind]; auto.
  split; [reflexivity|]. unfold read_at in E. destruct (read_bytes_at _ _ _) as [[p x]| |] eqn:Eb; cbn [bind] in E; try discriminate. injection E as <- <-.
  unfold read_bytes_at in Eb. destruct (read_words_at _ _ _) as [[[b' q] l]| |]; cbn [bind] in Eb; try discriminate. destruct (pointer_close _ _); cbn [bind] in Eb; try discriminate.
  destruct (d_err b') as [e|]; injection Eb as <- <-; cbn; (split; [intros E; try discriminate|intros E; try congruence; auto]).
  cbn. reflexivity.
Qed.

(** d3plot_read_run_time: what [localtime] makes of the stored time. *)
Theorem C107_local_time : forall T (localtime : Z -> option T) b titles states pl, opened b titles states pl ->
  gives b titles states (read_run_time localtime pl) (localtime (s64 (wd b 10))).
Proof.
  intros T lt b titles states pl O. destruct (proj2 (C57_title_run_time b titles states pl O)) as (pl' & Q & Er & O'). pose proof (C107_same_errors T lt pl) as K. rewrite Q in K.
  destruct (read_run_time lt pl) as [[pl2 r]| |]; try contradiction. destruct K as (<- & K & _). exists pl'. rewrite (K Er). auto.
Qed.
(** dro::D3plot::read_run_time: the stored second, for all times a time point can hold: 1677 to 2262. *)
Theorem C107_time_partial : forall b titles states pl, opened b titles states pl -> -9223372036 <= s64 (wd b 10) <= 9223372036 ->
  hands_back b titles states (cpp_read_run_time pl) (s64 (wd b 10) * 1000000000).
Proof.
  intros b titles states pl O B. destruct (proj2 (C57_title_run_time b titles states pl O)) as (pl' & Q & Er & O'). exists pl'. split; [|exact O'].
  unfold cpp_read_run_time, or_throw. rewrite Q. cbn [bind]. rewrite Er. unfold nanoseconds. rewrite (proj2 (andb_true_iff _ _)); [reflexivity|]. split; [apply Z.leb_le|apply Z.ltb_lt]; lia.
Qed.
(** With words of 4 bytes these are all. *)
Theorem C107_single : forall b titles states pl, opened b titles states pl -> d_ws b = 4 ->
  hands_back b titles states (cpp_read_run_time pl) (wd b 10 * 1000000000) /\ 0 <= wd b 10 < 2 ^ 32.
Proof.
  intros b titles states pl O W. assert (B : 0 <= wd b 10 < 2 ^ 32).
  { destruct O as (Su & _). pose proof (wd_bound b (su_sound b Su) (su_bytes b Su) 10) as B. rewrite W in B. exact B. }
  split; [|exact B]. assert (E : s64 (wd b 10) = wd b 10).
  { unfold s64. cbv zeta. rewrite Z.mod_small by lia. destruct (Z.ltb_spec (wd b 10) (2 ^ 63)); [reflexivity|lia]. }
  rewrite <- E. apply C107_time_partial; [exact O|]. rewrite E. lia.
Qed.
(** Every other time: an overflow. *)
Theorem C107_late_refuted : forall b titles states pl, opened b titles states pl -> ~ -9223372036 <= s64 (wd b 10) <= 9223372036 -> cpp_read_run_time pl = UB.
Proof.
  intros b titles states pl O B. destruct (proj2 (C57_title_run_time b titles states pl O)) as (pl' & Q & Er & O').
  unfold cpp_read_run_time, or_throw. rewrite Q. cbn [bind]. rewrite Er. unfold nanoseconds. rewrite (proj2 (andb_false_iff _ _)); [reflexivity|].
  rewrite Z.leb_gt, Z.ltb_ge. lia.
Qed.
Theorem C107_throws : forall pl pl', (forall t, cpp_read_run_time pl = OK (pl', Returned t) -> pl_err pl' = None) /\ (forall e, cpp_read_run_time pl = OK (pl', Throws e) -> pl_err pl' = Some e).
Proof.
  intros pl pl'. unfold cpp_read_run_time, or_throw. split; intros t; (destruct (read_epoch_run_time pl) as [(p1, x)| | ]; cbn [bind]; try discriminate).
  - destruct (pl_err p1) eqn:E; [discriminate|]. destruct (nanoseconds x); cbn [bind]; try discriminate. intros [= -> _]. exact E.
  - destruct (pl_err p1) eqn:E; [intros [= -> ->]; exact E|]. destruct (nanoseconds x); discriminate.
Qed.
(** A plot that was written at the time [dm_run_time]. *)
Theorem C107_written : forall m pl, model_wf m -> open_plot m pl -> 0 <= dm_run_time m <= 9223372036 ->
  returns m (cpp_read_run_time pl) (Returned (dm_run_time m * 1000000000)).
Proof.
  intros m pl Wf O B. destruct (C100_titles m pl Wf O) as (_ & (pl' & Q & Er & O') & _). exists pl'. split; [|split; [exact Er|exact O']].
  assert (E : s64 (dm_run_time m) = dm_run_time m). { unfold s64. cbv zeta. rewrite Z.mod_small by lia. destruct (Z.ltb_spec (dm_run_time m) (2 ^ 63)); [reflexivity|lia]. }
  rewrite E in Q. unfold cpp_read_run_time, or_throw. rewrite Q. cbn [bind]. rewrite Er. unfold nanoseconds. rewrite (proj2 (andb_true_iff _ _)); [reflexivity|]. split; [apply Z.leb_le|apply Z.ltb_lt]; lia.
Qed.

(** ** Non-vacuity *)
Example C107_single_case : exists pl, opened rich3 148 [189; 358] pl /\ d_ws rich3 = 4.
Proof. destruct rich3_opened as (pl & O). exists pl. split; [exact O|reflexivity]. Qed.
Example C107_dated_case : exists pl, opened (rich [(10, 1700000000)] 169) 148 [189; 358] pl /\ wd (rich [(10, 1700000000)] 169) 10 = 1700000000 /\
  exists pl', cpp_read_run_time pl = OK (pl', Returned 1700000000000000000).
Proof.
  assert (X : exists pl, opened (rich [(10, 1700000000)] 169) 148 [189; 358] pl) by (change [189; 358] with [189; 189 + 169]; prove_opened (rich [(10, 1700000000)] 169) 169).
  destruct X as (pl & O). exists pl. split; [exact O|]. assert (E : wd (rich [(10, 1700000000)] 169) 10 = 1700000000) by (vm_compute; reflexivity). split; [exact E|].
  destruct (proj1 (C107_single _ _ _ _ O eq_refl)) as (pl' & Q & _). exists pl'. rewrite Q, E. reflexivity.
Qed.
Example C107_written_case : model_wf ex_model /\ 0 <= dm_run_time ex_model <= 9223372036.
Proof. split; [exact (proj1 C100_example)|]. cbn. lia. Qed.
(** The plot of C100's example again, with words of 8 bytes, from the 11th of April 2262, 23:47:17. *)
Definition late_model : dmodel :=
  {| dm_ws := 8; dm_title := dm_title ex_model; dm_run_time := 9223372037; dm_coords := dm_coords ex_model; dm_node_ids := dm_node_ids ex_model;
     dm_solids := dm_solids ex_model; dm_solid_ids := dm_solid_ids ex_model; dm_beams := dm_beams ex_model; dm_beam_ids := dm_beam_ids ex_model;
     dm_shells := dm_shells ex_model; dm_shell_ids := dm_shell_ids ex_model; dm_thick := dm_thick ex_model; dm_thick_ids := dm_thick_ids ex_model;
     dm_parts := [(5, repeat 0x4141414141414141 9); (9, repeat 0x4242424242424242 9)]; dm_mats := dm_mats ex_model; dm_nglob := dm_nglob ex_model; dm_has := dm_has ex_model; dm_strain := dm_strain ex_model;
     dm_solid_hist := dm_solid_hist ex_model; dm_ips := dm_ips ex_model; dm_ip_hist := dm_ip_hist ex_model; dm_beam_ips := dm_beam_ips ex_model; dm_pad := dm_pad ex_model;
     dm_files := dm_files ex_model |}.
Lemma late_state_wf t : In t [0; 1; 2] -> state_wf late_model (ex_state t).
Proof.
  intros I. cbn [In] in I. destruct I as [<- |[<- |[<- |[]]]]; (constructor; [apply words_dec; vm_compute; reflexivity|vm_compute; discriminate|reflexivity|intros []; reflexivity|..]);
    (split; [reflexivity|]); repeat constructor.
Qed.
Lemma late_wf : model_wf late_model.
Proof.
  constructor; try (right; reflexivity); try reflexivity.
  - split; [repeat constructor; vm_compute; try discriminate; reflexivity|reflexivity].
  - split; [repeat constructor; vm_compute; try discriminate; reflexivity|reflexivity].
  - split; [repeat constructor; vm_compute; try discriminate; reflexivity|reflexivity].
  - split; [repeat constructor; vm_compute; try discriminate; reflexivity|reflexivity].
  - split; [discriminate|repeat constructor].
  - apply words_dec. vm_compute. reflexivity.
  - cbn. lia.
  - cbn. lia.
  - split; [discriminate|]. repeat (constructor; [split; [repeat (constructor; [apply late_state_wf; cbn [In]; tauto|]); constructor|apply words_dec; reflexivity]|]). constructor.
  - split; [vm_compute; reflexivity|]. split; [unfold small; cbn; lia|]. split; [vm_compute; reflexivity|]. split; [unfold small; cbn; lia|vm_compute; reflexivity].
Qed.
Example C107_late_case : exists pl, open_plot late_model pl /\ cpp_read_run_time pl = UB.
Proof.
  destruct (C53_control_data _ _ _ (p_supported _ late_wf) (p_regular _ late_wf) (p_layout _ late_wf)) as (pl & Q & E & _).
  assert (O : open_plot late_model pl) by (exists pl, (pl_err pl); split; [exact Q|]; split; [exact E|destruct pl; reflexivity]).
  exists pl. split; [exact O|]. apply (C107_late_refuted _ _ _ _ (is_opened _ _ late_wf O)). rewrite (r_run_time _ late_wf). vm_compute. intros (_ & H). apply H. reflexivity.
Qed.

Print Assumptions C107_local_time.
Print Assumptions C107_same_errors.
Print Assumptions C107_time_partial.
Print Assumptions C107_single.
Print Assumptions C107_late_refuted.
Print Assumptions C107_throws.
Print Assumptions C107_written.
