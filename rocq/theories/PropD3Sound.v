(** * Property C71: what a d3plot that opens without an error is like *)
From Verif Require Import CBase CBaseFacts BinModel D3BufModel D3BufSpec D3BufProofs D3Model D3Spec D3CurProofs D3OpenProofs D3BadProofs D3SectProofs D3SoundProofs D3Sample.
Open Scope Z_scope.

(** What has to be true of the words of a plot (positions as in the control data
    table of the LS-DYNA database manual). *)
Record consistent (b : dbuf) : Prop := {
  co_type : wd b 11 = 1 \/ wd b 11 = 1001;            (* a d3plot *)
  co_ndim : wd b 15 = 4;                               (* unpacked connectivities, no material types, three dimensions *)
  co_icode : wd b 17 = 2 \/ wd b 17 = 6;
  co_idtdt : forall n, 0 <= n <= 3 -> wd b 56 / 10 ^ n mod 10 <> 1;
  co_neips : wd b 35 <= 255;
  co_maxint : maxint_of (signed (d_ws b) (wd b 36)) <= 255;
  co_ale : wd b 47 = 0; co_sph : wd b 37 = 0; co_efg : wd b 54 = 0; co_numds : wd b 25 = 0; co_numst : wd b 26 = 0; co_it : wd b 19 = 0;
  co_extra : wd b 57 = 0 \/ 18 <= wd b 57;
  (* the id section repeats the numbers of the control data and has the announced size *)
  co_ids : wd b 39 <> 0 ->
    wd b (geometry_end b + 5) = wd b 16 /\ wd b (geometry_end b + 6) = signed (d_ws b) (wd b 23) /\ wd b (geometry_end b + 7) = wd b 28 /\
    wd b (geometry_end b + 8) = wd b 31 /\ wd b (geometry_end b + 9) = wd b 40 /\ ids_end b - geometry_end b = wd b 39;
  (* the end markers *)
  co_marker : has b (marker_pos b) /\ is_eof (d_ws b) (wd b (marker_pos b)) = true }.

Lemma size_4 b : sound_family b -> bytes_ok b -> d_ws b = 4 -> marker_pos b < 2 ^ 60.
Proof.
  intros So By W. assert (U : forall i, 0 <= wd b i < 2 ^ 32) by (intros i; pose proof (wd_bound b So By i) as X; rewrite W in X; exact X).
  assert (Cv : forall f, f <> NEL8 -> f <> MAXINT -> 0 <= cval b f < 2 ^ 32).
  { intros f A B. unfold cval. destruct (control_pos f) as [i|]; [destruct f; try congruence; apply U|]. destruct (extra_pos f) as [i|]; [destruct (0 <? wd b 57); [apply U|lia]|lia]. }
  assert (C8 : cval b NEL8 < 2 ^ 32). { unfold cval. cbn [control_pos]. unfold signed, s32. rewrite W. cbn [Z.eqb Pos.eqb]. pose proof (Z.mod_pos_bound (wd b 23) (2 ^ 32)). destruct (_ <? _); lia. }
  assert (Np : npart b < 2 ^ 32) by (unfold npart; destruct (higher_order b); [apply U|lia]).
  assert (Nm : ids_nmmat b < 2 ^ 32) by (unfold ids_nmmat; destruct (part_ids_present b); [apply U|apply Cv; discriminate]).
  pose proof (Cv NUMNP ltac:(discriminate) ltac:(discriminate)). pose proof (Cv NELT ltac:(discriminate) ltac:(discriminate)). pose proof (Cv NEL2 ltac:(discriminate) ltac:(discriminate)). pose proof (Cv NEL4 ltac:(discriminate) ltac:(discriminate)).
  pose proof (Cv NADAPT ltac:(discriminate) ltac:(discriminate)). pose proof (Cv EXTRA ltac:(discriminate) ltac:(discriminate)). pose proof (Cv NEL48 ltac:(discriminate) ltac:(discriminate)). pose proof (Cv NEL20 ltac:(discriminate) ltac:(discriminate)).
  pose proof (Cv NEL27 ltac:(discriminate) ltac:(discriminate)). pose proof (Cv NEL21P ltac:(discriminate) ltac:(discriminate)). pose proof (Cv NEL15T ltac:(discriminate) ltac:(discriminate)). pose proof (Cv NEL20T ltac:(discriminate) ltac:(discriminate)).
  pose proof (Cv NEL40P ltac:(discriminate) ltac:(discriminate)). pose proof (Cv NEL64 ltac:(discriminate) ltac:(discriminate)).
  unfold marker_pos, ids_end, i_parts, i_elt, i_el4, i_el2, i_el8, ids_start, geometry_end, g_el4, g_el2, g_elt, g_el8, control_end, extra_nodes, if_pos.
  destruct (has_ids b), (part_ids_present b), (higher_order b), (0 <? cval b QUADR), (0 <? cval b CUBIC); lia.
Qed.

(** Every plot that d3plot_open accepts (8-byte words: if its tables do not
    exceed the address space) is consistent. *)
Theorem C71_opened_is_consistent : forall b pl, sound_family b -> aligned b -> d_err b = None -> bytes_ok b -> 0 <= signed (d_ws b) (wd b 23) ->
  d_ws b = 4 \/ marker_pos b < 2 ^ 60 -> open_buffer b = OK pl -> pl_err pl = None -> consistent b.
Proof.
  intros b pl So Al Er By N8 Sz Q E. assert (Sz' : marker_pos b < 2 ^ 60) by (destruct Sz as [W|Sz]; [apply size_4; assumption|exact Sz]).
  destruct (open_sound b So Al Er By N8 Sz') as (A1 & Ck & A2 & A3 & A4 & A5 & A6 & _); [exists pl; auto|].
  constructor; try assumption; try apply Ck.
  - apply (ck_zero b Ck IALEMAT). cbn; tauto.
  - apply (ck_zero b Ck NMSPH). cbn; tauto.
  - apply (ck_zero b Ck NPEFG). cbn; tauto.
  - apply (ck_zero b Ck NUMDS). cbn; tauto.
  - apply (ck_zero b Ck NUMST). cbn; tauto.
  - apply (ck_zero b Ck IT). cbn; tauto.
  - intros Na. apply A4. unfold has_ids. change (cval b NARBS) with (wd b 39). destruct (Z.eqb_spec (wd b 39) 0); [contradiction|reflexivity].
  - split; assumption.
Qed.
(** ... and its header consists of known title blocks up to an end marker, there
    is another file behind the header, and it has no CFD data. *)
Theorem C71_header_is_complete : forall b pl, sound_family b -> aligned b -> d_err b = None -> bytes_ok b -> 0 <= signed (d_ws b) (wd b 23) ->
  d_ws b = 4 -> open_buffer b = OK pl -> pl_err pl = None ->
  wd b 48 <> 67108864 /\ exists hdr_end titles q, blocks b (marker_pos b + 1) 0 hdr_end titles /\ file_end b (hdr_end - 1) q true.
Proof.
  intros b pl So Al Er By N8 W Q E. destruct (open_sound b So Al Er By N8 (size_4 b So By W)) as (_ & _ & _ & _ & _ & _ & _ & H); [exists pl; auto|].
  apply H. apply few_titles_4; assumption.
Qed.

(** ** Non-vacuity *)
Example C71_example : exists pl, sound_family sample /\ aligned sample /\ d_err sample = None /\ bytes_ok sample /\ signed (d_ws sample) (wd sample 23) = 1 /\ d_ws sample = 4 /\
  open_buffer sample = OK pl /\ pl_err pl = None /\ wd sample 39 <> 0.
Proof.
  pose proof sample_supported as Su. eexists. split; [apply Su|]. split; [apply Su|]. split; [reflexivity|]. split; [apply Su|]. split; [vm_compute; reflexivity|]. split; [reflexivity|]. split; [vm_compute; reflexivity|]. split; [reflexivity|vm_compute; discriminate].
Qed.
(** A plot whose id section has another size than NARBS says is rejected, and so
    is one with a mesh free part. *)
Definition wrong_ids : dbuf := sample_with (sample_settings ++ [(39, 25)]) [sample_file2].
Definition mesh_free : dbuf := sample_with (sample_settings ++ [(37, 1)]) [sample_file2].
Example C71_rejected : (exists pl, open_buffer wrong_ids = OK pl /\ pl_err pl = Some P_sanity) /\ (exists pl, open_buffer mesh_free = OK pl /\ pl_err pl = Some P_nmsph).
Proof. split; eexists; (split; [vm_compute; reflexivity|reflexivity]). Qed.
Print Assumptions C71_opened_is_consistent.
Print Assumptions C71_header_is_complete.
