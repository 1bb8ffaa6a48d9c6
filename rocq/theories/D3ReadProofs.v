(** * Proofs about the readers *)
From Verif Require Import CBase CBaseFacts BinModel D3BufModel D3BufSpec D3BufProofs D3Model D3Spec D3CurProofs D3OpenProofs D3SectProofs D3StateProofs D3ReadModel D3ReadSpec.
Open Scope Z_scope.

(** ** Numbers *)
Lemma fields_spec mb eb s e m : 0 < mb -> 0 < eb -> 0 <= e < 2 ^ eb -> 0 <= m < 2 ^ mb ->
  (s * 2 ^ (eb + mb) + e * 2 ^ mb + m) / 2 ^ (eb + mb) = s /\ (s * 2 ^ (eb + mb) + e * 2 ^ mb + m) / 2 ^ mb mod 2 ^ eb = e /\ (s * 2 ^ (eb + mb) + e * 2 ^ mb + m) mod 2 ^ mb = m.
Proof.
  intros Hm He Be Bm. rewrite Z.pow_add_r by lia. assert (P1 : 0 < 2 ^ mb) by (apply Z.pow_pos_nonneg; lia). assert (P2 : 0 < 2 ^ eb) by (apply Z.pow_pos_nonneg; lia).
  set (A := 2 ^ eb) in *. set (B := 2 ^ mb) in *. split; [|split].
  - symmetry. apply Z.div_unique with (r := e * B + m); [left; nia|ring].
  - replace ((s * (A * B) + e * B + m) / B) with (s * A + e) by (apply Z.div_unique with (r := m); [left; lia|ring]).
    symmetry. apply Z.mod_unique with (q := s); [left; lia|ring].
  - symmetry. apply Z.mod_unique with (q := s * A + e); [left; lia|ring].
Qed.
Lemma widen_value w v : 0 <= w < 2 ^ 32 -> float_value w = Some v -> double_value (widen w) = Some v.
Proof.
  intros Bw. unfold float_value, double_value, ieee, widen. change (8 + 23) with 31. change (11 + 52) with 63.
  set (s := w / 2 ^ 31). set (e := w / 2 ^ 23 mod 2 ^ 8). set (m := w mod 2 ^ 23).
  assert (Be : 0 <= e < 2 ^ 8) by (apply Z.mod_pos_bound; lia). assert (Bm : 0 <= m < 2 ^ 23) by (apply Z.mod_pos_bound; lia). clearbody s e m. clear w Bw.
  change (2 ^ 8 - 1) with 255. destruct (Z.eqb_spec e 255) as [E|E]; [discriminate|]. intros Hv.
  assert (G : forall E' M, 0 <= E' < 2 ^ 11 - 1 -> 0 <= M < 2 ^ 52 ->
    (if E' =? 0 then M * 2 ^ (1 - 1023 - 52 + 1074) else (2 ^ 52 + M) * 2 ^ (E' - 1023 - 52 + 1074)) = (if e =? 0 then m * 2 ^ (1 - 127 - 23 + 1074) else (2 ^ 23 + m) * 2 ^ (e - 127 - 23 + 1074)) ->
    (if (s * 2 ^ 63 + (E' * 2 ^ 52 + M)) / 2 ^ 52 mod 2 ^ 11 =? 2 ^ 11 - 1 then None
     else Some ((-1) ^ ((s * 2 ^ 63 + (E' * 2 ^ 52 + M)) / 2 ^ 63) *
       (if (s * 2 ^ 63 + (E' * 2 ^ 52 + M)) / 2 ^ 52 mod 2 ^ 11 =? 0 then (s * 2 ^ 63 + (E' * 2 ^ 52 + M)) mod 2 ^ 52 * 2 ^ (1 - 1023 - 52 + 1074)
        else (2 ^ 52 + (s * 2 ^ 63 + (E' * 2 ^ 52 + M)) mod 2 ^ 52) * 2 ^ ((s * 2 ^ 63 + (E' * 2 ^ 52 + M)) / 2 ^ 52 mod 2 ^ 11 - 1023 - 52 + 1074)))) = Some v).
  { intros E' M B1 B2 Eq. destruct (fields_spec 52 11 s E' M) as (F1 & F2 & F3); [lia|lia|lia|lia|]. change (11 + 52) with 63 in *. rewrite <- Z.add_assoc in *. rewrite F1, F2, F3.
    destruct (Z.eqb_spec E' (2 ^ 11 - 1)); [lia|]. rewrite Eq. exact Hv. }
  destruct (Z.eqb_spec e 0) as [E0|E0].
  - destruct (Z.eqb_spec m 0) as [M0|M0].
    + specialize (G 0 0). cbv zeta. change (0 * 2 ^ 52 + 0) with 0 in G. apply G; [lia|lia|]. rewrite M0. reflexivity.
    + pose proof (Z.log2_spec m ltac:(lia)) as (L1 & L2). assert (L3 : 0 <= Z.log2 m < 23) by (split; [apply Z.log2_nonneg|apply Z.log2_lt_pow2; lia]).
      set (k := Z.log2 m) in *. rewrite Z.pow_succ_r in L2 by lia. apply G; [lia| |].
      * assert (P : 2 ^ k * 2 ^ (52 - k) = 2 ^ 52) by (rewrite <- Z.pow_add_r by lia; f_equal; lia). assert (0 < 2 ^ (52 - k)) by (apply Z.pow_pos_nonneg; lia). split; [apply Z.mul_nonneg_nonneg; lia|nia].
      * destruct (Z.eqb_spec (k + 874) 0); [lia|]. assert (P : 2 ^ 52 + (m - 2 ^ k) * 2 ^ (52 - k) = m * 2 ^ (52 - k)) by (rewrite Z.mul_sub_distr_r, <- Z.pow_add_r by lia; replace (k + (52 - k)) with 52 by lia; lia).
        rewrite P, <- Z.mul_assoc, <- Z.pow_add_r by lia. f_equal. f_equal. lia.
  - apply G; [lia|lia|]. destruct (Z.eqb_spec (e + 896) 0); [lia|]. replace (2 ^ 52 + m * 2 ^ 29) with ((2 ^ 23 + m) * 2 ^ 29) by ring.
    rewrite <- Z.mul_assoc, <- Z.pow_add_r by lia. f_equal. f_equal. lia.
Qed.
Lemma widen_special w : 0 <= w < 2 ^ 32 -> float_value w = None -> double_value (widen w) = None.
Proof.
  intros Bw. unfold float_value, double_value, ieee, widen. change (8 + 23) with 31. change (11 + 52) with 63.
  set (s := w / 2 ^ 31). set (e := w / 2 ^ 23 mod 2 ^ 8). set (m := w mod 2 ^ 23).
  assert (Bm : 0 <= m < 2 ^ 23) by (apply Z.mod_pos_bound; lia). clearbody s e m. change (2 ^ 8 - 1) with 255. destruct (e =? 255); [|discriminate]. intros _.
  destruct (fields_spec 52 11 s 2047 (m * 2 ^ 29)) as (F1 & F2 & F3); [lia|lia|lia|lia|]. change (11 + 52) with 63 in *. rewrite <- Z.add_assoc in *. rewrite F2. reflexivity.
Qed.

(** ** Reading a stretch of words *)
Lemma words_firstn : forall n ws d, words n ws (firstn (n * Z.to_nat ws) d) = words n ws d.
Proof.
  induction n as [|n IH]; intros ws d; [reflexivity|]. cbn [words]. f_equal.
  - rewrite firstn_firstn. do 2 f_equal. lia.
  - rewrite <- (IH ws (skipn (Z.to_nat ws) d)). rewrite skipn_firstn_comm. do 2 f_equal. lia.
Qed.
Lemma words_stretch b pos n : 0 <= pos -> 0 < d_ws b -> words (Z.to_nat n) (d_ws b) (bytes_from b (pos * d_ws b) (n * d_ws b)) = stretch b pos n.
Proof.
  intros P W. destruct (Z_lt_le_dec n 0) as [N|N]; [unfold stretch; replace (Z.to_nat n) with O by lia; reflexivity|].
  unfold bytes_from, stretch. replace (Z.to_nat (n * d_ws b)) with (Z.to_nat n * Z.to_nat (d_ws b))%nat by nia. rewrite words_firstn.
  generalize (Z.to_nat n). clear n N. intros n. revert pos P. induction n as [|n IH]; intros pos P; [reflexivity|]. cbn [words seq map]. f_equal.
  - unfold wd, word_at, bytes_from. do 4 f_equal. lia.
  - rewrite <- seq_shift, map_map. rewrite skipn_skipn. replace (Z.to_nat (pos * d_ws b) + Z.to_nat (d_ws b))%nat with (Z.to_nat ((pos + 1) * d_ws b)) by nia.
    rewrite IH by lia. apply map_ext. intros i. f_equal. lia.
Qed.
Lemma stretch_length b pos n : length (stretch b pos n) = Z.to_nat n.
Proof. unfold stretch. rewrite map_length, seq_length. reflexivity. Qed.
Lemma stretch_nth b pos n i : (i < Z.to_nat n)%nat -> nth_error (stretch b pos n) i = Some (wd b (pos + Z.of_nat i)).
Proof.
  intros L. unfold stretch. rewrite nth_error_map. assert (E : nth_error (seq 0 (Z.to_nat n)) i = Some i) by (rewrite (nth_error_nth' _ 0%nat) by (rewrite seq_length; exact L); rewrite seq_nth by exact L; reflexivity).
  rewrite E. reflexivity.
Qed.
Lemma with_buf_id pl b : pl_buf pl = b -> with_buf pl b = pl.
Proof. intros <-. destruct pl. reflexivity. Qed.

Section Reads.
Context (b : dbuf) (Su : supported b).
Lemma read_bytes_ok pl n pos : pl_buf pl = b -> 0 <= pos -> 0 <= n -> below b pos -> (pos + n) * d_ws b <= total b ->
  read_bytes_at pl n pos = OK (pl, Some (bytes_from b (pos * d_ws b) (n * d_ws b))).
Proof.
  intros Eb P N Bl T. pose proof (su_sound b Su) as So. unfold read_bytes_at. rewrite Eb. unfold read_words_at.
  destruct (seek_in b pos So P Bl) as (p & Q & A & W). rewrite Q. cbn [bind]. rewrite (su_err b Su).
  destruct (read_in b p (pos * d_ws b) n pos So A N) as (p' & w' & Q' & A' & _); [lia|rewrite W; symmetry; apply u64_id; destruct So as (_ & B63 & [Ws|Ws]); unfold below in Bl; rewrite Ws in *; lia|].
  rewrite Q'. cbn [bind]. rewrite (pointer_close_ok _ _ _ A'). cbn [bind]. rewrite (su_err b Su). rewrite (with_buf_id pl b Eb). reflexivity.
Qed.
Lemma read_ok pl n pos : pl_buf pl = b -> 0 <= pos -> 0 <= n -> below b pos -> (pos + n) * d_ws b <= total b -> read_at pl n pos = OK (pl, Some (stretch b pos n)).
Proof.
  intros Eb P N Bl T. unfold read_at. rewrite read_bytes_ok by assumption. cbn [bind]. rewrite Eb, words_stretch; [reflexivity|exact P|]. apply sound_ws, Su.
Qed.
(** A read below a position that exists. *)
Lemma read_below pl n pos : pl_buf pl = b -> 0 <= pos -> 0 <= n -> below b (pos + n) -> read_at pl n pos = OK (pl, Some (stretch b pos n)).
Proof.
  intros Eb P N Bl. pose proof (sound_ws b (su_sound b Su)). unfold below in Bl. apply read_ok; auto; unfold below; nia.
Qed.
End Reads.

(** ** Opened plots *)
Lemma with_err_id pl e : pl_err pl = e -> with_err pl e = pl.
Proof. intros <-. destruct pl. reflexivity. Qed.
Record view (b : dbuf) (titles : Z) (states : list Z) (pl : plot) : Prop := {
  v_su : supported b; v_rg : regular_states b; v_la : layout b titles states;
  v_buf : pl_buf pl = b; v_cd : forall f, pl_cd pl f = control_value b f; v_istrn : pl_istrn pl = istrn_of b; v_init : pl_initial pl = None; v_states : pl_states pl = states;
  v_ptr : forall k, state_kind k = false \/ states <> [] -> pl_ptr pl k = table b titles k }.
Lemma opened_view b titles states pl : opened b titles states pl -> view b titles states pl.
Proof.
  intros (Su & Rg & La & pl0 & e & Q & ->). destruct (open_live b Su Rg titles states La) as (pl & Q' & E & B & C & I & N & S & T). rewrite Q in Q'. injection Q' as ->.
  constructor; auto.
Qed.
Lemma opened_err b titles states pl e : opened b titles states pl -> opened b titles states (with_err pl e).
Proof. intros (Su & Rg & La & pl0 & e0 & Q & ->). split; [exact Su|]. split; [exact Rg|]. split; [exact La|]. exists pl0, e. split; [exact Q|]. destruct pl0. reflexivity. Qed.

Section Opened.
Context (b : dbuf) (titles : Z) (states : list Z) (pl : plot) (V : view b titles states pl).
Let Su := v_su _ _ _ _ V. Let Rg := v_rg _ _ _ _ V. Let So := su_sound b Su.
Ltac nn f := pose proof (nonneg b Su f ltac:(discriminate) ltac:(discriminate)).

Lemma view_err e : view b titles states (with_err pl e).
Proof. destruct V. constructor; auto. Qed.
Lemma head_below i : i <= marker_pos b -> below b i.
Proof. intros I. apply (has_below b Su _ _ (has_marker b Su) I). Qed.

(** Ids *)
Lemma read_ids_ok k num pos : state_kind k = false -> table b titles k = pos -> 0 <= num -> 0 <= pos -> pos + num <= marker_pos b -> read_ids pl k num = OK (clear pl, stretch b pos num).
Proof.
  intros K T N P L. unfold read_ids. destruct (Z.eqb_spec num 0) as [->|Nz]; [reflexivity|].
  change (pl_ptr (clear pl)) with (pl_ptr pl). rewrite (v_ptr _ _ _ _ V k (or_introl K)), T.
  rewrite (read_below b Su (clear pl) num pos (v_buf _ _ _ _ V) P N (head_below _ L)). reflexivity.
Qed.
Lemma ids_in : has_ids b = true -> geometry_end b <= ids_start b <= i_el8 b /\ i_el8 b <= i_el2 b <= i_el4 b /\ i_el4 b <= i_elt b <= i_parts b /\ i_parts b <= i_parts b + 3 * ids_nmmat b <= marker_pos b.
Proof.
  intros Hi. pose proof (order b Su) as O. nn NUMNP. nn NEL2. nn NEL4. nn NELT. pose proof (su_nel8 b Su). pose proof (ids_nmmat_nonneg b Su).
  assert (ids_start b = geometry_end b + (if part_ids_present b then 16 else 10)) by reflexivity.
  assert (i_el8 b = ids_start b + cval b NUMNP) by reflexivity. assert (i_el2 b = i_el8 b + cval b NEL8) by reflexivity. assert (i_el4 b = i_el2 b + cval b NEL2) by reflexivity.
  assert (i_elt b = i_el4 b + cval b NEL4) by reflexivity. assert (i_parts b = i_elt b + cval b NELT) by reflexivity.
  assert (Ie : ids_end b = i_parts b + 3 * ids_nmmat b) by (unfold ids_end; rewrite Hi; reflexivity).
  destruct (part_ids_present b); lia.
Qed.
Lemma nel8_u64 : u64 (cval b NEL8) = cval b NEL8.
Proof.
  apply (small b Su). pose proof (order b Su) as O. pose proof (su_nel8 b Su). assert (g_elt b = g_el8 b + 9 * cval b NEL8) by reflexivity. lia.
Qed.
Lemma cd_of f : (match f with NDIM | IOSHL0 | IOSHL1 | IOSHL2 | IOSHL3 | IOSOL0 | IOSOL1 | MAXINT | MDLOPT | BEAMIP | PACKED | NPART | NUMRBS => False | _ => True end) -> pl_cd pl f = cval b f.
Proof. intros F. rewrite (v_cd _ _ _ _ V). destruct f; try contradiction; reflexivity. Qed.

Lemma node_ids_ok : has_ids b = true -> read_node_ids pl = OK (clear pl, stretch b (ids_start b) (cval b NUMNP)).
Proof.
  intros Hi. pose proof (ids_in Hi). pose proof (order b Su). nn NUMNP. unfold read_node_ids. rewrite cd_of by exact I. apply read_ids_ok; [reflexivity|cbn [table]; unfold ids_ptr; rewrite Hi; reflexivity|lia|lia|].
  assert (i_el8 b = ids_start b + cval b NUMNP) by reflexivity. lia.
Qed.
Lemma solid_ids_ok : has_ids b = true -> read_solid_element_ids pl = OK (clear pl, stretch b (i_el8 b) (cval b NEL8)).
Proof.
  intros Hi. pose proof (ids_in Hi). pose proof (order b Su). pose proof (su_nel8 b Su). unfold read_solid_element_ids. rewrite cd_of by exact I. rewrite nel8_u64.
  apply read_ids_ok; [reflexivity|cbn [table]; unfold ids_ptr; rewrite Hi; reflexivity|lia|lia|]. assert (i_el2 b = i_el8 b + cval b NEL8) by reflexivity. lia.
Qed.
Lemma beam_ids_ok : has_ids b = true -> read_beam_element_ids pl = OK (clear pl, stretch b (i_el2 b) (cval b NEL2)).
Proof.
  intros Hi. pose proof (ids_in Hi). pose proof (order b Su). nn NEL2. unfold read_beam_element_ids. rewrite cd_of by exact I.
  apply read_ids_ok; [reflexivity|cbn [table]; unfold ids_ptr; rewrite Hi; reflexivity|lia|lia|]. assert (i_el4 b = i_el2 b + cval b NEL2) by reflexivity. lia.
Qed.
Lemma shell_ids_ok : has_ids b = true -> read_shell_element_ids pl = OK (clear pl, stretch b (i_el4 b) (cval b NEL4)).
Proof.
  intros Hi. pose proof (ids_in Hi). pose proof (order b Su). nn NEL4. unfold read_shell_element_ids. rewrite cd_of by exact I.
  apply read_ids_ok; [reflexivity|cbn [table]; unfold ids_ptr; rewrite Hi; reflexivity|lia|lia|]. assert (i_elt b = i_el4 b + cval b NEL4) by reflexivity. lia.
Qed.
Lemma thick_shell_ids_ok : has_ids b = true -> read_thick_shell_element_ids pl = OK (clear pl, stretch b (i_elt b) (cval b NELT)).
Proof.
  intros Hi. pose proof (ids_in Hi). pose proof (order b Su). nn NELT. unfold read_thick_shell_element_ids. rewrite cd_of by exact I.
  apply read_ids_ok; [reflexivity|cbn [table]; unfold ids_ptr; rewrite Hi; reflexivity|lia|lia|]. assert (i_parts b = i_elt b + cval b NELT) by reflexivity. lia.
Qed.
(** Without ids the pointers are 0: the first words of the file are returned. *)
Lemma no_ids_node : has_ids b = false -> read_node_ids pl = OK (clear pl, stretch b 0 (cval b NUMNP)).
Proof.
  intros Hi. pose proof (order b Su). nn NUMNP. unfold read_node_ids. rewrite cd_of by exact I. apply read_ids_ok; [reflexivity|cbn [table]; unfold ids_ptr; rewrite Hi; reflexivity|lia|lia|].
  assert (g_el8 b = control_end b + 3 * cval b NUMNP) by reflexivity. lia.
Qed.
Lemma part_ids_ok : has_ids b = true -> part_ids_present b = true -> cval b NMMAT <= 3 * ids_nmmat b -> read_part_ids pl = OK (clear pl, stretch b (i_parts b) (cval b NMMAT)).
Proof.
  intros Hi Pp Le. pose proof (ids_in Hi). pose proof (order b Su). nn NMMAT. assert (T : table b titles K_PART_IDS = i_parts b) by (cbn [table]; unfold ids_ptr; rewrite Hi, Pp; reflexivity).
  unfold read_part_ids. change (pl_ptr (clear pl)) with (pl_ptr pl). rewrite (v_ptr _ _ _ _ V K_PART_IDS (or_introl eq_refl)), T.
  destruct (Z.eqb_spec (i_parts b) 0); [lia|]. change (pl_cd (clear pl)) with (pl_cd pl). rewrite cd_of by exact I.
  change (read_ids (clear pl)) with (read_ids pl). apply read_ids_ok; [reflexivity|exact T|lia|lia|lia].
Qed.

(** Title and run time *)
Lemma title_ok : read_title pl = OK (clear pl, bytes_from b 0 (10 * d_ws b)).
Proof.
  pose proof (order b Su). unfold read_title. change (pl_ptr (clear pl)) with (pl_ptr pl). rewrite (v_ptr _ _ _ _ V K_TITLE (or_introl eq_refl)). cbn [table].
  pose proof (head_below 10 ltac:(lia)) as B10. unfold below in B10. rewrite (read_bytes_ok b Su (clear pl) 10 0 (v_buf _ _ _ _ V)); [reflexivity|lia|lia|apply head_below; lia|lia].
Qed.
Lemma run_time_ok : read_epoch_run_time pl = OK (clear pl, s64 (wd b 10)).
Proof.
  pose proof (order b Su). unfold read_epoch_run_time. change (pl_ptr (clear pl)) with (pl_ptr pl). rewrite (v_ptr _ _ _ _ V K_RUN_TIME (or_introl eq_refl)). cbn [table].
  rewrite (read_below b Su (clear pl) 1 10 (v_buf _ _ _ _ V)); [reflexivity|lia|lia|apply head_below; lia].
Qed.

(** ** Connectivity *)
Lemma minus_one_spec i : minus_one (d_ws b) (wd b i) = zero_based (d_ws b) (wd b i).
Proof.
  pose proof (wd_bound b So (su_bytes b Su) i) as B. unfold minus_one, zero_based, u64. destruct So as (_ & _ & [W|W]); rewrite W in *.
  - change (4 =? 4) with true. change (8 * 4) with 32. change (256 ^ 4) with (2 ^ 32) in B. destruct (Z.eqb_spec (wd b i) 0) as [E|E]; [rewrite E; reflexivity|apply Z.mod_small; lia].
  - change (8 =? 4) with false. change (8 * 8) with 64. change (256 ^ 8) with (2 ^ 64) in B. destruct (Z.eqb_spec (wd b i) 0) as [E|E]; [rewrite E; reflexivity|apply Z.mod_small; lia].
Qed.
Lemma aget_stretch pos n i : (i < Z.to_nat n)%nat -> aget (stretch b pos n) i = OK (wd b (pos + Z.of_nat i)).
Proof. intros L. unfold aget. rewrite stretch_nth by exact L. reflexivity. Qed.
Lemma agets_stretch pos n is : Forall (fun i => (i < Z.to_nat n)%nat) is -> agets (stretch b pos n) is = OK (map (fun i => wd b (pos + Z.of_nat i)) is).
Proof. induction 1 as [|i r L F IH]; [reflexivity|]. cbn [agets map]. rewrite aget_stretch by exact L. cbn [bind]. rewrite IH. reflexivity. Qed.
Lemma build_each {A} (f : nat -> res A) (g : Z -> A) : forall n i, (forall j, (i <= j < i + n)%nat -> f j = OK (g (Z.of_nat j))) -> build f n i = OK (map (fun i => g (Z.of_nat i)) (seq i n)).
Proof.
  induction n as [|n IH]; intros i F; [reflexivity|]. cbn [build seq map]. rewrite (F i) by lia. cbn [bind]. rewrite IH; [reflexivity|]. intros j J. apply F. lia.
Qed.
Lemma con_at_ok pos num w n i : 0 <= num -> (i < Z.to_nat num)%nat -> w = n + 1 -> 0 <= n ->
  con_at (d_ws b) (Z.to_nat w) (seq 0 (Z.to_nat n)) (Z.to_nat n) (stretch b pos (w * num)) i = OK (con_spec b pos n (Z.of_nat i)).
Proof.
  intros N I W Nn. unfold con_at. assert (Lw : forall k, (k < Z.to_nat w)%nat -> (i * Z.to_nat w + k < Z.to_nat (w * num))%nat) by (intros k K; rewrite Z2Nat.inj_mul by lia; nia).
  rewrite agets_stretch; [|apply Forall_forall; intros x X; apply in_map_iff in X as (k & <- & K); apply in_seq in K; apply Lw; lia]. cbn [bind].
  rewrite aget_stretch by (apply Lw; lia). cbn [bind]. unfold con_spec. f_equal. f_equal.
  - rewrite !map_map. unfold stretch. rewrite map_map. apply map_ext. intros k. rewrite minus_one_spec. do 2 f_equal. rewrite W. nia.
  - rewrite minus_one_spec. do 2 f_equal. rewrite W. nia.
Qed.
Lemma read_con_ok {A} num w k pos (f : Z -> list Z -> nat -> res A) (g : Z -> A) : state_kind k = false -> 0 <= num -> 0 < w -> (0 < num -> table b titles k = pos) -> 0 <= pos -> pos + w * num <= marker_pos b ->
  (forall i, (i < Z.to_nat num)%nat -> f (d_ws b) (stretch b pos (w * num)) i = OK (g (Z.of_nat i))) -> read_con pl num w k f = OK (clear pl, each num g).
Proof.
  intros K N W T P L F. unfold read_con. destruct (Z.leb_spec num 0) as [Z|Nz]; [unfold each; replace (Z.to_nat num) with O by lia; reflexivity|].
  change (pl_ptr (clear pl)) with (pl_ptr pl). rewrite (v_ptr _ _ _ _ V k (or_introl K)), T by lia. rewrite (small b Su) by nia.
  rewrite (read_below b Su (clear pl) (w * num) pos (v_buf _ _ _ _ V) P ltac:(nia) (head_below _ L)). cbn [bind]. change (pl_buf (clear pl)) with (pl_buf pl). rewrite (v_buf _ _ _ _ V).
  rewrite (build_each _ g); [reflexivity|]. intros j J. apply F. lia.
Qed.
Lemma solids_con_ok : read_solid_elements pl = OK (clear pl, each (cval b NEL8) (con_spec b (g_el8 b) 8)).
Proof.
  pose proof (order b Su). pose proof (su_nel8 b Su) as N. unfold read_solid_elements. rewrite cd_of by exact I. assert (g_elt b = g_el8 b + 9 * cval b NEL8) by reflexivity.
  apply read_con_ok with (pos := g_el8 b); [reflexivity|exact N|lia|reflexivity|lia|lia|]. intros i I. apply (con_at_ok (g_el8 b) (cval b NEL8) 9 8 i N I); lia.
Qed.
Lemma thick_shells_con_ok : read_thick_shell_elements pl = OK (clear pl, each (cval b NELT) (con_spec b (g_elt b) 8)).
Proof.
  pose proof (order b Su). nn NELT. unfold read_thick_shell_elements. rewrite cd_of by exact I. assert (g_el2 b = g_elt b + 9 * cval b NELT) by reflexivity.
  apply read_con_ok with (pos := g_elt b); [reflexivity|lia|lia|intros P; cbn [table geometry_ptr]; destruct (Z.ltb_spec 0 (cval b NELT)); [reflexivity|lia]|lia|lia|].
  intros i I. apply (con_at_ok (g_elt b) (cval b NELT) 9 8 i); lia.
Qed.
Lemma shells_con_ok : read_shell_elements pl = OK (clear pl, each (cval b NEL4) (con_spec b (g_el4 b) 4)).
Proof.
  pose proof (order b Su). nn NEL4. unfold read_shell_elements. rewrite cd_of by exact I. assert (geometry_end b = g_el4 b + 5 * cval b NEL4) by reflexivity.
  apply read_con_ok with (pos := g_el4 b); [reflexivity|lia|lia|intros P; cbn [table geometry_ptr]; destruct (Z.ltb_spec 0 (cval b NEL4)); [reflexivity|lia]|lia|lia|].
  intros i I. apply (con_at_ok (g_el4 b) (cval b NEL4) 5 4 i); lia.
Qed.
Lemma beams_con_ok : read_beam_elements pl = OK (clear pl, each (cval b NEL2) (beam_con_spec b (g_el2 b))).
Proof.
  pose proof (order b Su). nn NEL2. unfold read_beam_elements. rewrite cd_of by exact I. assert (g_el4 b = g_el2 b + 6 * cval b NEL2) by reflexivity.
  apply read_con_ok with (pos := g_el2 b); [reflexivity|lia|lia|intros P; cbn [table geometry_ptr]; destruct (Z.ltb_spec 0 (cval b NEL2)); [reflexivity|lia]|lia|lia|].
  intros i I. unfold beam_con_at. rewrite !aget_stretch by (rewrite Z2Nat.inj_mul by lia; nia). cbn [bind]. unfold beam_con_spec. f_equal. unfold stretch. change (Z.to_nat 2) with 2%nat. cbn [seq map].
  rewrite !minus_one_spec. assert (E : forall k, g_el2 b + Z.of_nat (i * 6 + k) = g_el2 b + Z.of_nat i * 6 + Z.of_nat k) by (intros k; lia). rewrite !E.
  change (Z.of_nat 0) with 0. change (Z.of_nat 1) with 1. change (Z.of_nat 2) with 2. change (Z.of_nat 3) with 3. change (Z.of_nat 4) with 4. change (Z.of_nat 5) with 5.
  rewrite <- !Z.add_assoc. reflexivity.
Qed.

(** ** Times and nodal vectors *)
Lemma state_pos s p : nth_error states s = Some p -> 0 <= p /\ below b (p + state_size b).
Proof.
  intros N. destruct (v_la _ _ _ _ V) as (hdr_end & q & Bl & Fe & St). destruct (states_apart b Su Rg q states St s p N) as (A1 & A2 & _). split; [|exact A2].
  destruct St; try (destruct s; discriminate N); match goal with H : has b _ |- _ => destruct H; lia end.
Qed.
Lemma s_order : 0 <= s_coords b <= s_vel b /\ s_vel b <= s_acc b <= s_therm b /\ s_therm b <= s_solid b <= s_beam b /\ s_beam b <= s_shell b <= s_tshell b /\ s_tshell b <= s_del b <= state_size b /\ 1 <= s_coords b.
Proof. pose proof (state_order b Su Rg) as Hso. nn NGLBV. assert (s_coords b = 1 + cval b NGLBV) by reflexivity. lia. Qed.
Lemma state_read pl' s p off n : pl_buf pl' = b -> nth_error states s = Some p -> 0 <= off -> 0 <= n -> off + n <= state_size b -> read_at pl' n (u64 (p + off)) = OK (pl', Some (stretch b (p + off) n)).
Proof.
  intros Eb N O Nn L. destruct (state_pos s p N) as (P & B). rewrite u64_id.
  - apply (read_below b Su); [exact Eb|lia|lia|]. apply (below_le b Su _ _ B). lia.
  - pose proof (below_bound b Su _ B). pose proof (ws_pos b So). nia.
Qed.
Lemma nonempty s p : nth_error states s = Some p -> states <> [].
Proof. intros N ->. destruct s; discriminate N. Qed.
Lemma time_ok s p : nth_error states s = Some p -> read_time pl s = OK (clear pl, Some (to_double (d_ws b) (wd b p))).
Proof.
  intros N. unfold read_time, state_at. change (pl_states (clear pl)) with (pl_states pl). rewrite (v_states _ _ _ _ V), N. change (pl_ptr (clear pl)) with (pl_ptr pl).
  rewrite (v_ptr _ _ _ _ V K_STATE_TIME (or_intror (nonempty s p N))). cbn [table state_ptr].
  pose proof s_order. rewrite (state_read (clear pl) s p 0 1 (v_buf _ _ _ _ V) N) by lia. cbn [bind]. change (pl_buf (clear pl)) with (pl_buf pl). rewrite (v_buf _ _ _ _ V).
  unfold stretch. change (Z.to_nat 1) with 1%nat. cbn [seq map]. rewrite !Z.add_0_r. reflexivity.
Qed.
Lemma time_out s : (length states <= s)%nat -> read_time pl s = OK (with_err pl (Some P_state), None).
Proof. intros L. unfold read_time, state_at. change (pl_states (clear pl)) with (pl_states pl). rewrite (v_states _ _ _ _ V). apply nth_error_None in L. rewrite L. reflexivity. Qed.
Lemma all_times_ok : read_all_time pl = OK (clear pl, map (fun p => to_double (d_ws b) (wd b p)) states).
Proof.
  unfold read_all_time. change (pl_states (clear pl)) with (pl_states pl). rewrite (v_states _ _ _ _ V).
  assert (G : forall l k, (forall i p, nth_error l i = Some p -> nth_error states (k + i) = Some p) -> all_times (clear pl) l = OK (clear pl, Some (map (fun p => to_double (d_ws b) (wd b p)) l))).
  { induction l as [|p l IH]; intros k F; [reflexivity|]. cbn [all_times map]. pose proof (F O p eq_refl) as N. rewrite Nat.add_0_r in N.
    change (pl_ptr (clear pl)) with (pl_ptr pl). rewrite (v_ptr _ _ _ _ V K_STATE_TIME (or_intror (nonempty k p N))). cbn [table state_ptr].
    pose proof s_order. rewrite (state_read (clear pl) k p 0 1 (v_buf _ _ _ _ V) N) by lia. cbn [bind]. unfold stretch. change (Z.to_nat 1) with 1%nat. cbn [seq map].
    rewrite (IH (S k)) by (intros i q I; rewrite Nat.add_succ_l, <- Nat.add_succ_r; apply F; exact I). cbn [bind]. change (pl_buf (clear pl)) with (pl_buf pl). rewrite (v_buf _ _ _ _ V).
    rewrite !Z.add_0_r. reflexivity. }
  rewrite (G states O) by auto. reflexivity.
Qed.

(** The nodal vectors. *)
Definition vec_flag (k : dkind) : field := match k with K_STATE_NODE_COORDS => IU | K_STATE_NODE_VEL => IV | _ => IA end.
Definition vec_off (k : dkind) : Z := match k with K_STATE_NODE_COORDS => s_coords b | K_STATE_NODE_VEL => s_vel b | _ => s_acc b end.
Definition is_vec (k : dkind) : Prop := k = K_STATE_NODE_COORDS \/ k = K_STATE_NODE_VEL \/ k = K_STATE_NODE_ACC.
Lemma numnp3 : u64 (cval b NUMNP * 3) = 3 * cval b NUMNP.
Proof. pose proof (order b Su). nn NUMNP. rewrite Z.mul_comm. apply (small b Su). assert (g_el8 b = control_end b + 3 * cval b NUMNP) by reflexivity. lia. Qed.
Lemma vec_facts k : is_vec k -> cval b (vec_flag k) = 1 -> 0 < vec_off k /\ vec_off k + 3 * cval b NUMNP <= state_size b.
Proof.
  intros K F. pose proof s_order as O. nn NUMNP. assert (S1 : s_vel b = s_coords b + 3 * cval b NUMNP * flag (cval b IU)) by reflexivity. assert (S2 : s_acc b = s_vel b + 3 * cval b NUMNP * flag (cval b IV)) by reflexivity.
  assert (S3 : s_therm b = s_acc b + 3 * cval b NUMNP * flag (cval b IA)) by reflexivity.
  destruct K as [-> | [-> | ->]]; cbn [vec_flag vec_off] in *; rewrite F in *; change (flag 1) with 1 in *; lia.
Qed.
Lemma vec_ptr k : is_vec k -> states <> [] -> pl_ptr pl k = if cval b (vec_flag k) =? 0 then 0 else vec_off k.
Proof. intros K N. rewrite (v_ptr _ _ _ _ V k (or_intror N)). destruct K as [-> | [-> | ->]]; reflexivity. Qed.
Lemma node_data_ok k s p : is_vec k -> cval b (vec_flag k) = 1 -> nth_error states s = Some p ->
  node_data pl s k = OK (clear pl, Some (map (to_double (d_ws b)) (stretch b (p + vec_off k) (3 * cval b NUMNP)))).
Proof.
  intros K F N. destruct (vec_facts k K F) as (O1 & O2). nn NUMNP. unfold node_data, node_words. change (pl_ptr (clear pl)) with (pl_ptr pl). rewrite (vec_ptr k K (nonempty s p N)), F. change (1 =? 0) with false. cbn match.
  destruct (Z.eqb_spec (vec_off k) 0); [lia|]. unfold state_at. change (pl_states (clear pl)) with (pl_states pl). rewrite (v_states _ _ _ _ V), N. change (pl_cd (clear pl)) with (pl_cd pl). rewrite cd_of by exact I.
  rewrite numnp3, (state_read (clear pl) s p (vec_off k) _ (v_buf _ _ _ _ V) N) by lia. cbn [bind]. change (pl_buf (clear pl)) with (pl_buf pl). rewrite (v_buf _ _ _ _ V). reflexivity.
Qed.
Lemma node_data_absent k s : is_vec k -> cval b (vec_flag k) = 0 -> states <> [] -> node_data pl s k = OK (with_err pl (Some P_node_data), None).
Proof.
  intros K F N. unfold node_data, node_words. change (pl_ptr (clear pl)) with (pl_ptr pl). rewrite (vec_ptr k K N), F. reflexivity.
Qed.
Lemma node_data_out k s : is_vec k -> cval b (vec_flag k) = 1 -> states <> [] -> (length states <= s)%nat -> node_data pl s k = OK (with_err pl (Some P_state), None).
Proof.
  intros K F N L. destruct (vec_facts k K F) as (O1 & _). unfold node_data, node_words. change (pl_ptr (clear pl)) with (pl_ptr pl). rewrite (vec_ptr k K N), F. change (1 =? 0) with false. cbn match.
  destruct (Z.eqb_spec (vec_off k) 0); [lia|]. unfold state_at. change (pl_states (clear pl)) with (pl_states pl). rewrite (v_states _ _ _ _ V). apply nth_error_None in L. rewrite L. reflexivity.
Qed.
Lemma all_node_raw_ok k off : (states <> [] -> pl_ptr pl k = off) -> 0 <= off -> off + 3 * cval b NUMNP <= state_size b ->
  all_node_words (clear pl) k states = OK (clear pl, Some (flat_map (fun p => stretch b (p + off) (3 * cval b NUMNP)) states)).
Proof.
  intros P O1 O2. nn NUMNP.
  assert (G : forall l j, (forall i p, nth_error l i = Some p -> nth_error states (j + i) = Some p) -> all_node_words (clear pl) k l = OK (clear pl, Some (flat_map (fun p => stretch b (p + off) (3 * cval b NUMNP)) l))).
  { induction l as [|p l IH]; intros j F; [reflexivity|]. cbn [all_node_words flat_map]. pose proof (F O p eq_refl) as N. rewrite Nat.add_0_r in N.
    change (pl_ptr (clear pl)) with (pl_ptr pl). change (pl_cd (clear pl)) with (pl_cd pl). rewrite (P (nonempty j p N)), cd_of by exact I.
    rewrite numnp3, (state_read (clear pl) j p off _ (v_buf _ _ _ _ V) N) by lia. cbn [bind].
    rewrite (IH (S j)) by (intros i q Hi; rewrite Nat.add_succ_l, <- Nat.add_succ_r; apply F; exact Hi). reflexivity. }
  apply (G states O). auto.
Qed.
Lemma all_node_words_ok k off : (states <> [] -> pl_ptr pl k = off) -> 0 <= off -> off + 3 * cval b NUMNP <= state_size b ->
  read_all_node_data pl k = OK (clear pl, Some (map (to_double (d_ws b)) (flat_map (fun p => stretch b (p + off) (3 * cval b NUMNP)) states))).
Proof.
  intros P O1 O2. unfold read_all_node_data. change (pl_states (clear pl)) with (pl_states pl). rewrite (v_states _ _ _ _ V), (all_node_raw_ok k off P O1 O2).
  cbn [bind]. change (pl_buf (clear pl)) with (pl_buf pl). rewrite (v_buf _ _ _ _ V). reflexivity.
Qed.

(** ** Part titles *)
Lemma blocks_titles pos t pos' t' : blocks b pos t pos' t' -> 0 <= pos -> t' = t \/ (2 <= t' /\ wd b (t' - 2) = 90001 /\ below b (t' + wd b (t' - 1) * (1 + 72 / d_ws b))).
Proof.
  pose proof (wd_u64 b So (su_bytes b Su)) as U. assert (W : 0 <= 72 / d_ws b /\ 0 <= 80 / d_ws b) by (destruct So as (_ & _ & [W|W]); rewrite W; split; vm_compute; discriminate).
  induction 1 as [pos t H E|pos t pos' t' H E B _ IH|pos t pos' t' H P E B _ IH|pos t pos' t' H P E B _ IH|pos t pos' t' H P E B _ IH]; intros Hp; [left; reflexivity| | | |].
  - apply IH. lia.
  - right. pose proof (U (pos + 1)). destruct IH as [-> | IH]; [nia| |exact IH]. split; [lia|]. replace (pos + 2 - 2) with pos by lia. replace (pos + 2 - 1) with (pos + 1) by lia. auto.
  - apply IH. pose proof (U (pos + 1)). nia.
  - apply IH. pose proof (U (pos + 1)). nia.
Qed.
Lemma titles_fact : titles <> 0 -> 2 <= titles /\ wd b (titles - 2) = 90001 /\ below b (titles + wd b (titles - 1) * (1 + 72 / d_ws b)).
Proof.
  intros Nz. destruct (v_la _ _ _ _ V) as (hdr_end & q & Bl & _). pose proof (order b Su). apply blocks_titles in Bl; [|lia]. destruct Bl as [E|F]; [contradiction|exact F].
Qed.
Lemma size72 : 0 < 72 / d_ws b /\ 72 / d_ws b * d_ws b = 72 /\ title_size (d_ws b) = 72 / d_ws b.
Proof. destruct So as (_ & _ & [W|W]); rewrite W; repeat split; reflexivity. Qed.
Lemma entry_next i : title_entry b titles (i + 1) = title_entry b titles i + 1 + 72 / d_ws b.
Proof. unfold title_entry. ring. Qed.
Lemma entry_below num i : titles <> 0 -> num <= wd b (titles - 1) -> 0 <= i <= num -> below b (title_entry b titles i) /\ 2 <= title_entry b titles i.
Proof.
  intros Nz Le I. destruct (titles_fact Nz) as (T2 & _ & B). pose proof size72. split; [|unfold title_entry; nia]. apply (below_le b Su _ _ B). unfold title_entry. nia.
Qed.
Lemma title_ids_ok num : titles <> 0 -> num <= wd b (titles - 1) -> forall n i c, Z.of_nat i + Z.of_nat n <= num -> live b c (title_entry b titles (Z.of_nat i)) ->
  exists c', title_ids n c = OK (c', map (fun j => wd b (title_entry b titles (Z.of_nat j))) (seq i n)) /\ live b c' (title_entry b titles (Z.of_nat (i + n))).
Proof.
  intros Nz Le. pose proof size72 as (S1 & S2 & _). pose proof (ws_pos b So) as Ws. pose proof (tot b So) as Tt. induction n as [|n IH]; intros i c L Lc.
  - exists c. rewrite Nat.add_0_r. auto.
  - destruct (entry_below num (Z.of_nat (S i)) Nz Le) as (B & P); [lia|]. destruct (entry_below num (Z.of_nat i) Nz Le) as (_ & P0); [lia|].
    assert (En : title_entry b titles (Z.of_nat (S i)) = title_entry b titles (Z.of_nat i) + 1 + 72 / d_ws b) by (rewrite Nat2Z.inj_succ; apply entry_next).
    assert (H : has b (title_entry b titles (Z.of_nat i))) by (split; [lia|]; unfold below in B; nia).
    cbn [title_ids seq map]. destruct (word_live b So (su_aligned b Su) (su_err b Su) c _ Lc H) as (c1 & Q1 & L1 & _). rewrite Q1. cbn [bind].
    unfold skipb, skip_bytes. rewrite (live_ws b c1 _ L1). destruct (skip_live b So c1 _ (72 / d_ws b) L1) as (c2 & Q2 & R2); [lia|rewrite <- En; unfold below in B; lia|].
    unfold skip in Q2. rewrite Q2. cbn [bind]. rewrite <- En in R2. destruct (IH (S i) c2) as (c3 & Q3 & L3); [lia|apply (reach_live b _ _ R2 B)|].
    rewrite Q3. cbn [bind]. exists c3. split; [reflexivity|]. rewrite Nat.add_succ_l, <- Nat.add_succ_r in L3. exact L3.
Qed.
Lemma live_close c pos : live b c pos -> pointer_close (fst c) (snd c) = OK closed.
Proof. intros (E & A & _). rewrite E. apply (pointer_close_ok b (snd c) _ A). Qed.
Lemma part_ids_titles_ok : has_ids b && part_ids_present b = false -> titles <> 0 -> 0 < cval b NMMAT <= wd b (titles - 1) ->
  read_part_ids pl = OK (clear pl, each (cval b NMMAT) (fun i => wd b (title_entry b titles i))).
Proof.
  intros Hi Nz Le. unfold read_part_ids. change (pl_ptr (clear pl)) with (pl_ptr pl). rewrite (v_ptr _ _ _ _ V K_PART_IDS (or_introl eq_refl)), (v_ptr _ _ _ _ V K_PART_TITLES (or_introl eq_refl)). cbn [table]. unfold ids_ptr.
  assert (E0 : (if has_ids b then if part_ids_present b then i_parts b else 0 else 0) = 0) by (destruct (has_ids b); [destruct (part_ids_present b); [discriminate Hi|]|]; reflexivity). rewrite E0. change (0 =? 0) with true. cbn match.
  destruct (Z.eqb_spec titles 0) as [X|_]; [contradiction|]. change (pl_cd (clear pl)) with (pl_cd pl). rewrite cd_of by exact I. unfold each.
  destruct (Z.to_nat (cval b NMMAT)) as [|n] eqn:En; [lia|]. cbn [seq map]. change (pl_buf (clear pl)) with (pl_buf pl). rewrite (v_buf _ _ _ _ V).
  pose proof size72 as (S1 & S2 & _). pose proof (ws_pos b So) as Ws. pose proof (tot b So) as Tt.
  destruct (entry_below (cval b NMMAT) 1 Nz ltac:(lia) ltac:(lia)) as (B & P). assert (E1 : title_entry b titles 1 = titles + 1 + 72 / d_ws b) by (unfold title_entry; ring).
  assert (E00 : title_entry b titles (Z.of_nat 0) = titles) by (unfold title_entry; ring). rewrite E00. destruct (titles_fact Nz) as (T2 & _ & _).
  assert (H : has b titles) by (split; [lia|]; unfold below in B; nia). assert (Bt : below b titles) by (apply (below_le b Su _ _ B); lia).
  unfold read_words_at. destruct (seek_in b titles So ltac:(lia) Bt) as (p & Q & A & W). rewrite Q. cbn [bind]. rewrite (su_err b Su).
  assert (L0 : live b (b, p) titles) by (split; [reflexivity|]; split; [exact A|]; split; [exact W|lia]).
  destruct (word_live b So (su_aligned b Su) (su_err b Su) _ _ L0 H) as (c1 & Q1 & L1 & _). unfold word in Q1. cbn [fst snd] in Q1.
  destruct (read_words b p 1) as [[[b' p'] d]| |] eqn:Qr; cbn [bind] in Q1; try discriminate Q1. injection Q1 as Ec Ev. subst c1. cbn [bind].
  unfold skipb, skip_bytes. rewrite (live_ws b (b', p') _ L1). destruct (skip_live b So (b', p') _ (72 / d_ws b) L1) as (c2 & Q2 & R2); [lia|rewrite <- E1; unfold below in B; lia|].
  unfold skip in Q2. rewrite Q2. cbn [bind]. rewrite <- E1 in R2.
  destruct (title_ids_ok (cval b NMMAT) Nz ltac:(lia) n 1 c2) as (c3 & Q3 & L3); [lia|apply (reach_live b _ _ R2 B)|]. rewrite Q3. cbn [bind]. rewrite (live_close c3 _ L3). cbn [bind].
  assert (F : fst c3 = b) by apply L3. rewrite F, Ev. rewrite (with_buf_id (clear pl) b (v_buf _ _ _ _ V)). reflexivity.
Qed.
(** One title *)
Lemma title_read c i num : titles <> 0 -> num <= wd b (titles - 1) -> 0 <= i < num -> live b c (title_entry b titles i + 1) ->
  exists p, read_words (fst c) (snd c) (title_size (d_ws b)) = OK (b, p, title_bytes b titles i) /\ live b (b, p) (title_entry b titles (i + 1)).
Proof.
  intros Nz Le Hi (E & A & W & P). pose proof size72 as (S1 & S2 & S3). pose proof (tot b So) as Tt. pose proof (ws_pos b So) as Ws. destruct (entry_below num (i + 1) Nz Le ltac:(lia)) as (B & P1).
  assert (En : title_entry b titles (i + 1) = title_entry b titles i + 1 + 72 / d_ws b) by apply entry_next.
  rewrite E, S3. destruct (read_in b (snd c) _ (72 / d_ws b) (title_entry b titles i + 1) So A) as (p' & w' & Q & A' & Pw & Dw); [lia|unfold below in B; nia|unfold cw in W; rewrite W; symmetry; apply u64_id; unfold below in B; nia|].
  exists p'. rewrite Q, S2. split; [reflexivity|]. split; [reflexivity|]. cbn [snd]. rewrite S2 in A'. split; [replace (title_entry b titles (i + 1) * d_ws b) with ((title_entry b titles i + 1) * d_ws b + 72) by (rewrite En; lia); exact A'|].
  unfold cw. cbn [snd]. rewrite Pw, (Dw (su_aligned b Su)) by apply Z.divide_factor_r. rewrite En. split; [apply u64_id; unfold below in B; nia|lia].
Qed.
Lemma more_titles_ok num : titles <> 0 -> num <= wd b (titles - 1) -> forall n i c, Z.of_nat i + Z.of_nat n <= num -> live b c (title_entry b titles (Z.of_nat i)) ->
  exists c', more_titles n c = OK (c', Some (map (fun j => title_bytes b titles (Z.of_nat j)) (seq i n))) /\ live b c' (title_entry b titles (Z.of_nat (i + n))).
Proof.
  intros Nz Le. pose proof size72 as (S1 & S2 & _). pose proof (ws_pos b So) as Ws. pose proof (tot b So) as Tt. induction n as [|n IH]; intros i c L Lc.
  - exists c. rewrite Nat.add_0_r. auto.
  - destruct (entry_below num (Z.of_nat i + 1) Nz Le) as (B & P); [lia|]. destruct (entry_below num (Z.of_nat i) Nz Le) as (_ & P0); [lia|].
    assert (En := entry_next (Z.of_nat i)). cbn [more_titles seq map].
    destruct (skip_live b So c _ 1 Lc) as (c1 & Q1 & R1); [lia|unfold below in B; nia|]. rewrite Q1. cbn [bind].
    assert (L1 : live b c1 (title_entry b titles (Z.of_nat i) + 1)) by (apply (reach_live b _ _ R1); apply (below_le b Su _ _ B); lia).
    rewrite (live_ws b c1 _ L1). destruct (title_read c1 (Z.of_nat i) num Nz Le ltac:(lia) L1) as (p & Q2 & L2). rewrite Q2. cbn [bind]. rewrite (su_err b Su).
    replace (Z.of_nat i + 1) with (Z.of_nat (S i)) in L2 by lia. destruct (IH (S i) (b, p)) as (c3 & Q3 & L3); [lia|exact L2|]. rewrite Q3. cbn [bind]. exists c3. split; [reflexivity|].
    rewrite Nat.add_succ_l, <- Nat.add_succ_r in L3. exact L3.
Qed.
Lemma part_titles_ok : titles <> 0 -> 0 < cval b NMMAT <= wd b (titles - 1) -> read_part_titles pl = OK (clear pl, each (cval b NMMAT) (title_bytes b titles)).
Proof.
  intros Nz Le. unfold read_part_titles. change (pl_cd (clear pl)) with (pl_cd pl). rewrite cd_of by exact I. unfold each.
  destruct (Z.to_nat (cval b NMMAT)) as [|n] eqn:En; [lia|]. cbn [seq map]. change (pl_buf (clear pl)) with (pl_buf pl). rewrite (v_buf _ _ _ _ V).
  change (pl_ptr (clear pl)) with (pl_ptr pl). rewrite (v_ptr _ _ _ _ V K_PART_TITLES (or_introl eq_refl)). cbn [table].
  pose proof size72 as (S1 & S2 & _). pose proof (ws_pos b So) as Ws. pose proof (tot b So) as Tt.
  destruct (entry_below (cval b NMMAT) 1 Nz ltac:(lia) ltac:(lia)) as (B & P). assert (E1 : title_entry b titles 1 = titles + 1 + 72 / d_ws b) by (unfold title_entry; ring).
  destruct (titles_fact Nz) as (T2 & _ & _). assert (Bt : below b (titles + 1)) by (apply (below_le b Su _ _ B); lia). rewrite u64_id by (unfold below in Bt; nia).
  unfold read_words_at. destruct (seek_in b (titles + 1) So ltac:(lia) Bt) as (p & Q & A & W). rewrite Q. cbn [bind]. rewrite (su_err b Su).
  assert (L0 : live b (b, p) (title_entry b titles 0 + 1)) by (replace (title_entry b titles 0) with titles by (unfold title_entry; ring); split; [reflexivity|]; split; [exact A|]; split; [exact W|lia]).
  destruct (title_read (b, p) 0 (cval b NMMAT) Nz ltac:(lia) ltac:(lia) L0) as (p1 & Q1 & L1). cbn [fst snd] in Q1. rewrite Q1. cbn [bind]. rewrite (su_err b Su).
  destruct (more_titles_ok (cval b NMMAT) Nz ltac:(lia) n 1 (b, p1)) as (c3 & Q3 & L3); [lia|exact L1|]. rewrite Q3. cbn [bind]. rewrite (live_close c3 _ L3). cbn [bind].
  assert (F : fst c3 = b) by apply L3. rewrite F. rewrite (with_buf_id (clear pl) b (v_buf _ _ _ _ V)). reflexivity.
Qed.
End Opened.
