(** * Property C94: the single precision readers of an opened d3plot *)
From Verif Require Import CBase CBaseFacts BinModel D3BufModel D3BufSpec D3BufProofs D3Model D3Spec D3CurProofs D3OpenProofs D3SectProofs D3StateProofs D3BadProofs D3Sample D3ReadModel D3ReadSpec D3ReadProofs PropD3Read D3FloatModel D3FloatSpec D3FloatProofs.
Open Scope Z_scope.

Definition to_float (b : dbuf) (w : Z) : Z := if d_ws b =? 8 then narrow w else w.
Lemma single_float b i : supported b -> single b (wd b i) (to_float b (wd b i)).
Proof.
  intros Su. pose proof (wd_bound b (su_sound b Su) (su_bytes b Su) i) as B. unfold single, to_float. destruct (su_sound b Su) as (_ & _ & [W|W]); rewrite W in *; [reflexivity|]. change (8 =? 4) with false. change (8 =? 8) with true. cbv iota.
  apply narrow_rounded. change (2 ^ 64) with (256 ^ 8). exact B.
Qed.
Lemma agree_float b i : supported b -> rounded (to_double (d_ws b) (wd b i)) (to_float b (wd b i)).
Proof.
  intros Su. pose proof (wd_bound b (su_sound b Su) (su_bytes b Su) i) as B. unfold to_double, to_float. destruct (su_sound b Su) as (_ & _ & [W|W]); rewrite W in *.
  - change (4 =? 4) with true. change (4 =? 8) with false. cbv iota. apply widen_rounded. exact B.
  - change (8 =? 4) with false. change (8 =? 8) with true. cbv iota. apply narrow_rounded. exact B.
Qed.
Lemma single_floats b pos n : supported b -> Forall2 (single b) (stretch b pos n) (map (to_float b) (stretch b pos n)).
Proof. intros Su. unfold stretch. generalize (seq 0 (Z.to_nat n)). induction l; cbn [map]; constructor; [apply single_float; exact Su|assumption]. Qed.
Lemma agree_floats b pos n : supported b -> Forall2 rounded (map (to_double (d_ws b)) (stretch b pos n)) (map (to_float b) (stretch b pos n)).
Proof. intros Su. unfold stretch. generalize (seq 0 (Z.to_nat n)). induction l; cbn [map]; constructor; [apply agree_float; exact Su|assumption]. Qed.

Section Readers.
Variables (b : dbuf) (titles : Z) (states : list Z) (pl : plot).
Hypothesis V : view b titles states pl.
Lemma time_32_ok s p : nth_error states s = Some p -> read_time_32 pl s = OK (clear pl, Some (to_float b (wd b p))).
Proof.
  intros N. unfold read_time_32, state_at. change (pl_states (clear pl)) with (pl_states pl). rewrite (v_states _ _ _ _ V), N. change (pl_ptr (clear pl)) with (pl_ptr pl).
  rewrite (v_ptr _ _ _ _ V K_STATE_TIME (or_intror (nonempty b titles states pl V s p N))). cbn [table state_ptr]. change (pl_buf (clear pl)) with (pl_buf pl). rewrite (v_buf _ _ _ _ V).
  pose proof (s_order b titles states pl V). rewrite (state_read b titles states pl V (clear pl) s p 0 1 (v_buf _ _ _ _ V) N) by lia. cbn [bind].
  unfold stretch. change (Z.to_nat 1) with 1%nat. cbn [seq map]. rewrite !Z.add_0_r. unfold to_float. destruct (d_ws b =? 8); reflexivity.
Qed.
Lemma time_32_out s : (length states <= s)%nat -> read_time_32 pl s = OK (with_err pl (Some P_state), None).
Proof. intros L. unfold read_time_32, state_at. change (pl_states (clear pl)) with (pl_states pl). rewrite (v_states _ _ _ _ V). apply nth_error_None in L. rewrite L. reflexivity. Qed.
Lemma all_times_32_go conv : all_times_32 conv (clear pl) states = OK (clear pl, Some (map (fun p => conv (wd b p)) states)).
Proof.
  assert (G : forall l k, (forall i p, nth_error l i = Some p -> nth_error states (k + i) = Some p) -> all_times_32 conv (clear pl) l = OK (clear pl, Some (map (fun p => conv (wd b p)) l))).
  { induction l as [|p l IH]; intros k F; [reflexivity|]. cbn [all_times_32 map]. pose proof (F O p eq_refl) as N. rewrite Nat.add_0_r in N.
    change (pl_ptr (clear pl)) with (pl_ptr pl). rewrite (v_ptr _ _ _ _ V K_STATE_TIME (or_intror (nonempty b titles states pl V k p N))). cbn [table state_ptr].
    pose proof (s_order b titles states pl V). rewrite (state_read b titles states pl V (clear pl) k p 0 1 (v_buf _ _ _ _ V) N) by lia. cbn [bind]. unfold stretch. change (Z.to_nat 1) with 1%nat. cbn [seq map].
    rewrite (IH (S k)) by (intros i q Hi; rewrite Nat.add_succ_l, <- Nat.add_succ_r; apply F; exact Hi). cbn [bind].
    rewrite !Z.add_0_r. reflexivity. }
  apply (G states O). auto.
Qed.
Lemma all_times_32_ok : read_all_time_32 pl = OK (clear pl, map (fun p => to_float b (wd b p)) states).
Proof.
  unfold read_all_time_32. change (pl_states (clear pl)) with (pl_states pl). change (pl_buf (clear pl)) with (pl_buf pl). rewrite (v_states _ _ _ _ V), (v_buf _ _ _ _ V), !all_times_32_go. unfold to_float. destruct (d_ws b =? 8); reflexivity.
Qed.
Lemma view_clear : view b titles states (clear pl).
Proof. apply (view_err b titles states pl V None). Qed.
Lemma to_double8 l : d_ws b = 8 -> map (to_double (d_ws b)) l = l.
Proof. intros W. rewrite W. rewrite <- (map_id l) at 2. apply map_ext. reflexivity. Qed.
Lemma node_data_32_ok k s p : is_vec k -> cval b (vec_flag k) = 1 -> nth_error states s = Some p ->
  node_data_32 pl s k = OK (clear pl, Some (map (to_float b) (stretch b (p + vec_off b k) (3 * cval b NUMNP)))).
Proof.
  intros K F N. destruct (vec_facts b titles states pl V k K F) as (O1 & O2). pose proof (nonneg b (v_su _ _ _ _ V) NUMNP ltac:(discriminate) ltac:(discriminate)) as Nn. unfold node_data_32. change (pl_ptr (clear pl)) with (pl_ptr pl). rewrite (vec_ptr b titles states pl V k K (nonempty b titles states pl V s p N)), F. change (1 =? 0) with false. cbn match.
  destruct (Z.eqb_spec (vec_off b k) 0); [lia|]. change (pl_buf (clear pl)) with (pl_buf pl). rewrite (v_buf _ _ _ _ V). unfold to_float. destruct (Z.eqb_spec (d_ws b) 8) as [W|W].
  - rewrite (node_data_ok b titles states (clear pl) view_clear k s p K F N). cbn [bind]. rewrite (to_double8 _ W). reflexivity.
  - unfold state_at. change (pl_states (clear pl)) with (pl_states pl). rewrite (v_states _ _ _ _ V), N. change (pl_cd (clear pl)) with (pl_cd pl). rewrite (cd_of b titles states pl V) by exact I.
    rewrite (numnp3 b titles states pl V), (state_read b titles states pl V (clear pl) s p (vec_off b k) _ (v_buf _ _ _ _ V) N) by lia. rewrite map_id. reflexivity.
Qed.
Lemma node_data_32_absent k s : is_vec k -> cval b (vec_flag k) = 0 -> states <> [] -> node_data_32 pl s k = OK (with_err pl (Some P_node_data), None).
Proof. intros K F N. unfold node_data_32. change (pl_ptr (clear pl)) with (pl_ptr pl). rewrite (vec_ptr b titles states pl V k K N), F. reflexivity. Qed.
Lemma node_data_32_out k s : is_vec k -> cval b (vec_flag k) = 1 -> states <> [] -> (length states <= s)%nat -> node_data_32 pl s k = OK (with_err pl (Some P_state), None).
Proof.
  intros K F N L. destruct (vec_facts b titles states pl V k K F) as (O1 & _). unfold node_data_32. change (pl_ptr (clear pl)) with (pl_ptr pl). rewrite (vec_ptr b titles states pl V k K N), F. change (1 =? 0) with false. cbn match.
  destruct (Z.eqb_spec (vec_off b k) 0); [lia|]. destruct (d_ws (pl_buf (clear pl)) =? 8).
  - rewrite (node_data_out b titles states (clear pl) view_clear k s K F N L). reflexivity.
  - unfold state_at. change (pl_states (clear pl)) with (pl_states pl). rewrite (v_states _ _ _ _ V). apply nth_error_None in L. rewrite L. reflexivity.
Qed.
Lemma all_node_data_32_ok k off : (states <> [] -> pl_ptr pl k = off) -> 0 <= off -> off + 3 * cval b NUMNP <= state_size b ->
  read_all_node_data_32 pl k = OK (clear pl, Some (map (to_float b) (flat_map (fun p => stretch b (p + off) (3 * cval b NUMNP)) states))).
Proof.
  intros P O1 O2. pose proof (all_node_words_ok b titles states pl V k off P O1 O2) as A. unfold read_all_node_data_32. rewrite (v_buf _ _ _ _ V). unfold to_float. destruct (Z.eqb_spec (d_ws b) 8) as [W|W].
  - rewrite A. cbn [bind]. rewrite (to_double8 _ W). reflexivity.
  - change (pl_states (clear pl)) with (pl_states pl). rewrite (v_states _ _ _ _ V), map_id. apply (all_node_raw_ok b titles states pl V k off P O1 O2).
Qed.
End Readers.

(** ** C94: times as floats *)
(** Every time is the word of its state, and what the double precision reader
    returns rounded to the nearest float. *)
Theorem C94_time : forall b titles states pl s p, opened b titles states pl -> nth_error states s = Some p ->
  exists f t, gives b titles states (read_time_32 pl s) (Some f) /\ single b (wd b p) f /\ gives b titles states (read_time pl s) (Some t) /\ rounded t f.
Proof.
  intros b titles states pl s p O N. pose proof (opened_view _ _ _ _ O) as V. exists (to_float b (wd b p)), (to_double (d_ws b) (wd b p)). split; [apply (gives_clear _ _ _ _ _ _ O), (time_32_ok b titles states pl V s p N)|]. split; [apply single_float; apply O|].
  split; [apply (gives_clear _ _ _ _ _ _ O), (time_ok b titles states pl V s p N)|apply agree_float; apply O].
Qed.
Theorem C94_time_outside : forall b titles states pl s, opened b titles states pl -> (length states <= s)%nat ->
  reports b titles states (read_time_32 pl s) P_state None.
Proof. intros b titles states pl s O L. apply (reports_err _ _ _ _ _ _ _ O), (time_32_out b titles states pl (opened_view _ _ _ _ O) s L). Qed.
Theorem C94_all_times : forall b titles states pl, opened b titles states pl ->
  exists l d, gives b titles states (read_all_time_32 pl) l /\ Forall2 (fun p f => single b (wd b p) f) states l /\ gives b titles states (read_all_time pl) d /\ Forall2 rounded d l.
Proof.
  intros b titles states pl O. pose proof (opened_view _ _ _ _ O) as V. assert (Su : supported b) by apply O. exists (map (fun p => to_float b (wd b p)) states), (map (fun p => to_double (d_ws b) (wd b p)) states).
  split; [apply (gives_clear _ _ _ _ _ _ O), (all_times_32_ok b titles states pl V)|]. split; [clear O V; induction states; cbn [map]; constructor; auto; apply single_float; exact Su|].
  split; [apply (gives_clear _ _ _ _ _ _ O), (all_times_ok b titles states pl V)|clear O V; induction states; cbn [map]; constructor; auto; apply agree_float; exact Su].
Qed.

(** ** C94: nodal vectors as floats *)
Section Vectors.
Variables (fadd fadd32 : Z -> Z -> Z) (b : dbuf) (titles : Z) (states : list Z).
(** d3plot_read_node_coordinates_32, d3plot_read_node_velocity_32 and
    d3plot_read_node_acceleration_32; the pair is the cache of initial coordinates
    and the result. *)
Definition read_vector_32 (pl : plot) (init : option (list Z)) (s : nat) (v : vector) : res (plot * (option (list Z) * option (list Z))) :=
  match v with
  | Coordinates => read_node_coordinates_32 fadd32 pl init s
  | Velocity => do ' (pl, d) <- read_node_velocity_32 pl s; OK (pl, (init, d))
  | Acceleration => do ' (pl, d) <- read_node_acceleration_32 pl s; OK (pl, (init, d))
  end.
Lemma vector_32 pl init s v pl' x : opened b titles states pl -> (forall r, x = Some r -> v = Coordinates -> cval b IU = 1) -> node_data_32 pl s (kind_of v) = OK (pl', x) -> pl_cd pl' = pl_cd pl -> read_vector_32 pl init s v = OK (pl', (init, x)).
Proof.
  intros O F Q C. destruct v; cbn [read_vector_32 kind_of] in *; [|unfold read_node_velocity_32; rewrite Q; reflexivity|unfold read_node_acceleration_32; rewrite Q; reflexivity].
  unfold read_node_coordinates_32. rewrite Q. cbn [bind]. destruct x as [d|]; [|reflexivity]. rewrite C, (cd_of b titles states pl (opened_view _ _ _ _ O) IU I), (F d eq_refl eq_refl). reflexivity.
Qed.
Lemma flag_of v : cval b (vec_flag (kind_of v)) = announced b v.
Proof. destruct v; reflexivity. Qed.
Lemma place_of v : vec_off b (kind_of v) = vector_place b v.
Proof. destruct v; reflexivity. Qed.
(** An announced vector is returned for every state: its words (word size 4) or
    the doubles rounded; it is the rounded result of the double precision reader. *)
Theorem C94_vector : forall pl init v s p, opened b titles states pl -> announced b v = 1 -> nth_error states s = Some p ->
  exists l d, gives b titles states (read_vector_32 pl init s v) (init, Some l) /\ Forall2 (single b) (stretch b (p + vector_place b v) (3 * cval b NUMNP)) l /\
    gives b titles states (read_vector fadd pl s v) (Some d) /\ Forall2 rounded d l.
Proof.
  intros pl init v s p O F N. pose proof (opened_view _ _ _ _ O) as V. assert (Su : supported b) by apply O.
  exists (map (to_float b) (stretch b (p + vector_place b v) (3 * cval b NUMNP))), (map (to_double (d_ws b)) (stretch b (p + vector_place b v) (3 * cval b NUMNP))).
  split; [|split; [apply single_floats; exact Su|split; [|apply agree_floats; exact Su]]].
  - apply (gives_clear _ _ _ _ _ _ O), vector_32; [exact O|intros _ _ ->; exact F| |reflexivity]. rewrite <- place_of. apply (node_data_32_ok b titles states pl V); [apply kind_vec|rewrite flag_of; exact F|exact N].
  - apply (gives_clear _ _ _ _ _ _ O). rewrite <- place_of. destruct v; cbn [read_vector].
    + apply (coords_plain fadd b titles states); [exact O|intros _ _; exact F| |reflexivity]. apply (node_data_ok b titles states pl V K_STATE_NODE_COORDS s p (kind_vec Coordinates) F N).
    + apply (node_data_ok b titles states pl V K_STATE_NODE_VEL s p (kind_vec Velocity) F N).
    + apply (node_data_ok b titles states pl V K_STATE_NODE_ACC s p (kind_vec Acceleration) F N).
Qed.
Theorem C94_absent : forall pl init v s, opened b titles states pl -> announced b v = 0 -> states <> [] ->
  reports b titles states (read_vector_32 pl init s v) P_node_data (init, None).
Proof.
  intros pl init v s O F N. apply (reports_err _ _ _ _ _ _ _ O), vector_32; [exact O|discriminate| |reflexivity].
  apply (node_data_32_absent b titles states pl (opened_view _ _ _ _ O)); [apply kind_vec|rewrite flag_of; exact F|exact N].
Qed.
Theorem C94_outside : forall pl init v s, opened b titles states pl -> announced b v = 1 -> states <> [] -> (length states <= s)%nat ->
  reports b titles states (read_vector_32 pl init s v) P_state (init, None).
Proof.
  intros pl init v s O F N L. apply (reports_err _ _ _ _ _ _ _ O), vector_32; [exact O|discriminate| |reflexivity].
  apply (node_data_32_out b titles states pl (opened_view _ _ _ _ O)); [apply kind_vec|rewrite flag_of; exact F|exact N|exact L].
Qed.
Lemma floats_states off : supported b -> Forall2 (single b) (flat_map (fun p => stretch b (p + off) (3 * cval b NUMNP)) states) (map (to_float b) (flat_map (fun p => stretch b (p + off) (3 * cval b NUMNP)) states)) /\
  Forall2 rounded (map (to_double (d_ws b)) (flat_map (fun p => stretch b (p + off) (3 * cval b NUMNP)) states)) (map (to_float b) (flat_map (fun p => stretch b (p + off) (3 * cval b NUMNP)) states)).
Proof.
  intros Su. induction states as [|p l (I1 & I2)]; cbn [flat_map map]; [split; constructor|]. rewrite !map_app. split; apply Forall2_app; [apply single_floats; exact Su|exact I1|apply agree_floats; exact Su|exact I2].
Qed.
(** All states at once: the concatenation. *)
Theorem C94_all_states : forall pl v, opened b titles states pl -> announced b v = 1 ->
  exists l d, gives b titles states (read_all_node_data_32 pl (kind_of v)) (Some l) /\ Forall2 (single b) (flat_map (fun p => stretch b (p + vector_place b v) (3 * cval b NUMNP)) states) l /\
    gives b titles states (read_all_node_data pl (kind_of v)) (Some d) /\ Forall2 rounded d l.
Proof.
  intros pl v O F. pose proof (opened_view _ _ _ _ O) as V. assert (Su : supported b) by apply O. destruct (floats_states (vector_place b v) Su) as (G1 & G2). rewrite <- flag_of in F.
  destruct (vec_facts b titles states pl V (kind_of v) (kind_vec v) F) as (O1 & O2). rewrite place_of in O1, O2.
  assert (P : states <> [] -> pl_ptr pl (kind_of v) = vector_place b v) by (intros N; rewrite (vec_ptr b titles states pl V (kind_of v) (kind_vec v) N), F; apply place_of).
  eexists _, _. split; [apply (gives_clear _ _ _ _ _ _ O), (all_node_data_32_ok b titles states pl V (kind_of v) _ P); lia|]. split; [exact G1|].
  split; [apply (gives_clear _ _ _ _ _ _ O), (all_node_words_ok b titles states pl V (kind_of v) _ P); lia|exact G2].
Qed.
(** Like the double precision readers of all states these do not check that the
    vector exists: other words of the states are returned without an error. *)
Theorem C94_all_states_absent_refuted : forall pl v, opened b titles states pl -> announced b v = 0 -> states <> [] -> 3 * cval b NUMNP <= state_size b ->
  exists l, gives b titles states (read_all_node_data_32 pl (kind_of v)) (Some l) /\ Forall2 (single b) (flat_map (fun p => stretch b (p + 0) (3 * cval b NUMNP)) states) l.
Proof.
  intros pl v O F N Le. pose proof (opened_view _ _ _ _ O) as V. assert (Su : supported b) by apply O. destruct (floats_states 0 Su) as (G1 & _). rewrite <- flag_of in F.
  eexists. split; [|exact G1]. apply (gives_clear _ _ _ _ _ _ O), (all_node_data_32_ok b titles states pl V); [|lia|lia]. intros _. rewrite (vec_ptr b titles states pl V (kind_of v) (kind_vec v) N), F. reflexivity.
Qed.
End Vectors.
(** A number that is a float is not changed by the rounding. *)
Theorem C94_exact : forall w f g v, rounded w f -> double_value w = Some v -> 0 <= g < 2 ^ 32 -> float_value g = Some v -> float_negative g = double_negative w -> f = g.
Proof.
  intros w f g v (Bf & Sf & R1 & R2 & _) Dv Bg Fv Sg. assert (L : Z.abs v < too_large).
  { pose proof (widen_rounded g Bg) as (_ & _ & _ & W2 & _). pose proof (widen_value g v Bg Fv) as Wv. destruct (Z_lt_le_dec (Z.abs v) too_large) as [L|L]; [exact L|exfalso]. pose proof (W2 v Wv L) as I. unfold float_infinite in I.
    destruct (split32 g Bg) as (s & e & m & S & E & M & -> & _ & _ & _ & F4). rewrite F4 in I. assert (e = 255) by lia. subst e. rewrite (float_value_fields s 255 m S E M) in Fv. discriminate. }
  destruct (R1 v Dv L) as (u & N1 & N2 & _). pose proof (N2 g v Bg Fv) as Q. apply (float_value_inj f g v Bf Bg); [rewrite N1; f_equal; lia|exact Fv|congruence].
Qed.

(** ** Non-vacuity: 0.1, the tie 1 + 2^-24, the largest double, a tiny number. *)
Example C94_example : narrow 4591870180066957722 = 1036831949 /\ narrow (4607182418800017408 + 2 ^ 28) = 1065353216 /\ narrow (4607182418800017408 + 3 * 2 ^ 28) = 1065353218 /\
  narrow 9218868437227405311 = 255 * 2 ^ 23 /\ narrow 1 = 0 /\ narrow (2 ^ 63 + 1) = 2 ^ 31.
Proof. repeat split; vm_compute; reflexivity. Qed.
Example C94_nonvacuous : exists pl l d, opened sample 113 [154; 229] pl /\ announced sample Velocity = 1 /\ announced sample Acceleration = 0 /\ 3 * cval sample NUMNP <= state_size sample /\
  gives sample 113 [154; 229] (read_vector_32 Z.add pl None 1 Velocity) (None, Some l) /\ l = [2027; 2028; 2029; 2030; 2031; 2032] /\ gives sample 113 [154; 229] (read_vector Z.add pl 1 Velocity) (Some d) /\ Forall2 rounded d l.
Proof.
  destruct sample_opened as (pl & O). exists pl. destruct (C94_vector Z.add Z.add sample 113 [154; 229] pl None Velocity 1%nat 229 O) as (l & d & G & S & D & R); [vm_compute; reflexivity|reflexivity|]. exists l, d.
  split; [exact O|]. split; [vm_compute; reflexivity|]. split; [vm_compute; reflexivity|]. split; [decide_le|]. split; [exact G|]. split; [|split; [exact D|exact R]].
  assert (Q : stretch sample (229 + vector_place sample Velocity) (3 * cval sample NUMNP) = [2027; 2028; 2029; 2030; 2031; 2032]) by (vm_compute; reflexivity). rewrite Q in S.
  assert (E : forall a c, Forall2 (single sample) a c -> c = a) by (induction 1 as [|x y a c H]; [reflexivity|]; f_equal; [exact H|assumption]). exact (E _ _ S).
Qed.
Print Assumptions C94_time.
Print Assumptions C94_all_times.
Print Assumptions C94_vector.
Print Assumptions C94_all_states.
Print Assumptions C94_exact.
