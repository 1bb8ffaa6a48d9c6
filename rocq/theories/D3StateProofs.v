(** * The header, the states and the whole of d3plot_open *)
From Verif Require Import CBase CBaseFacts BinModel D3BufModel D3BufSpec D3BufProofs D3Model D3Spec D3CurProofs D3OpenProofs D3SectProofs.
Open Scope Z_scope.

Section States.
Context (b : dbuf) (Su : supported b).
Let So := su_sound b Su.
Let Al := su_aligned b Su.
Let Er := su_err b Su.
Let By := su_bytes b Su.
Notation live := (live b).
Notation reach := (reach b).
Notation dead := (dead b).
Ltac nn f := pose proof (nonneg b Su f ltac:(discriminate) ltac:(discriminate)).

Lemma ws_cases : d_ws b = 4 \/ d_ws b = 8.
Proof. apply So. Qed.
Lemma skipb_live c pos n k : live c pos -> 0 <= k -> n = k * d_ws b -> below b (pos + k) -> exists c', skipb c n = OK c' /\ live c' (pos + k).
Proof.
  intros L K -> B. unfold skipb, skip_bytes. rewrite (live_ws b c _ L). rewrite Z.div_mul by (destruct ws_cases; lia).
  destruct (skip_live b So c pos k L K) as (c' & Q & R'); [apply below_bound in B; auto; lia|]. exists c'. split; [exact Q|]. apply (reach_live b); auto.
Qed.

Lemma skipb_live_u64 c pos n k : live c pos -> 0 <= k -> n = k * d_ws b -> below b (pos + k) -> exists c', skipb c (u64 n) = OK c' /\ live c' (pos + k).
Proof.
  intros L K E B. rewrite u64_id; [eapply skipb_live; eauto|]. apply (below_bound b Su) in B. assert (0 <= pos) by apply L. destruct ws_cases; nia.
Qed.

Definition titles_ptr (t : Z) (k : dkind) (old : Z) : Z := match k with K_PART_TITLES => t | _ => old end.
Lemma header_live pos t pos' t' : blocks b pos t pos' t' -> forall fuel c pl, live c pos -> total b - pos * d_ws b < Z.of_nat fuel -> pl_ptr pl K_PART_TITLES = t ->
  exists c' pl', header fuel c pl = OK (c', pl', 1) /\ live c' pos' /\ 0 < p_pos (snd c') /\ same pl pl' /\ pl_cd pl' = pl_cd pl /\ forall k, pl_ptr pl' k = titles_ptr t' k (pl_ptr pl k).
Proof.
  assert (Skip : forall p k, has b p -> below b k -> p < k -> forall fuel, total b - p * d_ws b < Z.of_nat (S fuel) -> total b - k * d_ws b < Z.of_nat fuel).
  { intros p k (_ & Hp) Hk Lt fuel F. destruct ws_cases; nia. }
  induction 1 as [pos t H E|pos t pos' t' H E B _ IH|pos t pos' t' H P E B _ IH|pos t pos' t' H P E B _ IH|pos t pos' t' H P E B _ IH]; intros fuel c pl L F T;
    (destruct fuel as [|fuel]; [exfalso; pose proof (live_bound b So c pos L); lia|]); cbn [header].
  - destruct (word_live b So Al Er c pos L H) as (c' & Q & L' & Pp). rewrite Q. cbn [bind]. rewrite (live_ws b c' _ L'), (live_err b Er c' _ L').
    assert (Ne : forall v, (v = 90000 \/ v = 90001 \/ v = 90002 \/ v = 900100) -> (wd b pos =? v) = false).
    { intros v V. apply Z.eqb_neq. intros X. rewrite X in E. unfold is_eof in E. destruct ws_cases as [Wc|Wc]; rewrite Wc in E; destruct V as [-> | [-> | [-> | ->]]]; discriminate E. }
    rewrite !Ne by tauto. rewrite E. eexists _, _. split; [reflexivity|]. split; [exact L'|]. split; [exact Pp|]. split; [repeat split|]. split; [reflexivity|]. intros k. destruct k; auto.
  - destruct (word_live b So Al Er c pos L H) as (c1 & Q & L1 & _). rewrite Q. cbn [bind]. rewrite (live_err b Er c1 _ L1). rewrite E. cbn [Z.eqb Pos.eqb].
    assert (D72 : 72 = 72 / d_ws b * d_ws b) by (destruct ws_cases as [Wc|Wc]; rewrite Wc; reflexivity). assert (D0 : 0 < 72 / d_ws b) by (destruct ws_cases as [Wc|Wc]; rewrite Wc; reflexivity).
    destruct (skipb_live c1 (pos + 1) 72 (72 / d_ws b) L1) as (c2 & Q2 & L2); [lia|exact D72|exact B|]. rewrite Q2. cbn [bind]. rewrite (live_err b Er c2 _ L2).
    apply (IH fuel c2 pl L2); [|exact T]. apply (Skip pos); auto; lia.
  - assert (Hp : has b pos) by (apply (has_le b Su pos (pos + 1)); auto; lia).
    destruct (word_live b So Al Er c pos L Hp) as (c1 & Q & L1 & _). rewrite Q. cbn [bind]. rewrite (live_ws b c1 _ L1), (live_err b Er c1 _ L1). rewrite E. cbn [Z.eqb Pos.eqb].
    destruct (word_live b So Al Er c1 _ L1 H) as (c2 & Q2 & L2 & _). rewrite Q2. cbn [bind]. rewrite (live_err b Er c2 _ L2). replace (pos + 1 + 1) with (pos + 2) in L2 by lia.
    pose proof (wd_u64 b So By (pos + 1)) as (N0 & _). set (n := wd b (pos + 1)) in *.
    assert (D : (d_ws b + 72) * n = n * (1 + 72 / d_ws b) * d_ws b) by (destruct ws_cases as [Wc|Wc]; rewrite Wc; [change (72 / 4) with 18|change (72 / 8) with 9]; lia).
    assert (D0 : 0 < 72 / d_ws b) by (destruct ws_cases as [Wc|Wc]; rewrite Wc; reflexivity).
    destruct (skipb_live_u64 c2 (pos + 2) ((d_ws b + 72) * n) (n * (1 + 72 / d_ws b)) L2) as (c3 & Q3 & L3); [nia|exact D|exact B|].
    rewrite Q3. cbn [bind]. rewrite (live_err b Er c3 _ L3). assert (W2 : cw c2 = pos + 2) by apply L2. rewrite W2.
    destruct (IH fuel c3 (with_ptr pl K_PART_TITLES (pos + 2)) L3) as (c' & pl' & Q' & L' & Pp & Sm & Cd & Pt); [apply (Skip pos); auto; nia|reflexivity|].
    exists c', pl'. split; [exact Q'|]. split; [exact L'|]. split; [exact Pp|]. split; [exact Sm|]. split; [exact Cd|]. intros k. rewrite Pt. destruct k; reflexivity.
  - assert (Hp : has b pos) by (apply (has_le b Su pos (pos + 1)); auto; lia).
    destruct (word_live b So Al Er c pos L Hp) as (c1 & Q & L1 & _). rewrite Q. cbn [bind]. rewrite (live_ws b c1 _ L1), (live_err b Er c1 _ L1). rewrite E. cbn [Z.eqb Pos.eqb].
    destruct (word_live b So Al Er c1 _ L1 H) as (c2 & Q2 & L2 & _). rewrite Q2. cbn [bind]. rewrite (live_err b Er c2 _ L2). replace (pos + 1 + 1) with (pos + 2) in L2 by lia.
    pose proof (wd_u64 b So By (pos + 1)) as (N0 & _). set (n := wd b (pos + 1)) in *.
    assert (D : (d_ws b + 72) * n = n * (1 + 72 / d_ws b) * d_ws b) by (destruct ws_cases as [Wc|Wc]; rewrite Wc; [change (72 / 4) with 18|change (72 / 8) with 9]; lia).
    assert (D0 : 0 < 72 / d_ws b) by (destruct ws_cases as [Wc|Wc]; rewrite Wc; reflexivity).
    destruct (skipb_live_u64 c2 (pos + 2) ((d_ws b + 72) * n) (n * (1 + 72 / d_ws b)) L2) as (c3 & Q3 & L3); [nia|exact D|exact B|].
    rewrite Q3. cbn [bind]. rewrite (live_err b Er c3 _ L3). apply (IH fuel c3 pl L3); [|exact T]. apply (Skip pos); auto; nia.
  - assert (Hp : has b pos) by (apply (has_le b Su pos (pos + 1)); auto; lia).
    destruct (word_live b So Al Er c pos L Hp) as (c1 & Q & L1 & _). rewrite Q. cbn [bind]. rewrite (live_err b Er c1 _ L1). rewrite E. cbn [Z.eqb Pos.eqb].
    destruct (word_live b So Al Er c1 _ L1 H) as (c2 & Q2 & L2 & _). rewrite Q2. cbn [bind]. rewrite (live_err b Er c2 _ L2). replace (pos + 1 + 1) with (pos + 2) in L2 by lia.
    pose proof (wd_u64 b So By (pos + 1)) as (N0 & _). set (n := wd b (pos + 1)) in *.
    assert (D : 80 * n = n * (80 / d_ws b) * d_ws b) by (destruct ws_cases as [Wc|Wc]; rewrite Wc; [change (80 / 4) with 20|change (80 / 8) with 10]; lia).
    assert (D0 : 0 < 80 / d_ws b) by (destruct ws_cases as [Wc|Wc]; rewrite Wc; reflexivity).
    destruct (skipb_live_u64 c2 (pos + 2) (80 * n) (n * (80 / d_ws b)) L2) as (c3 & Q3 & L3); [nia|exact D|exact B|].
    rewrite Q3. cbn [bind]. rewrite (live_err b Er c3 _ L3). apply (IH fuel c3 pl L3); [|exact T]. apply (Skip pos); auto; nia.
Qed.

(** ** One state *)
Definition state_kind (k : dkind) : bool :=
  match k with K_STATE_TIME | K_STATE_NODE_COORDS | K_STATE_NODE_VEL | K_STATE_NODE_ACC | K_STATE_SOLID | K_STATE_THICK_SHELL | K_STATE_BEAM | K_STATE_SHELL => true | _ => false end.
Definition state_ptr (k : dkind) (old : Z) : Z :=
  match k with
  | K_STATE_NODE_COORDS => if cval b IU =? 0 then old else s_coords b
  | K_STATE_NODE_VEL => if cval b IV =? 0 then old else s_vel b
  | K_STATE_NODE_ACC => if cval b IA =? 0 then old else s_acc b
  | K_STATE_SOLID => s_solid b | K_STATE_BEAM => s_beam b | K_STATE_SHELL => s_shell b | K_STATE_THICK_SHELL => s_tshell b
  | _ => old
  end.
(** Only state pointers have changed, and only before the first state. *)
Definition moved (pl pl' : plot) : Prop :=
  same pl pl' /\ pl_cd pl' = pl_cd pl /\ forall k, state_kind k = false \/ pl_states pl <> [] -> pl_ptr pl' k = pl_ptr pl k.
Lemma moved_refl pl : moved pl pl.
Proof. repeat split. Qed.
Lemma moved_trans a x c : moved a x -> moved x c -> moved a c.
Proof.
  intros (S1 & C1 & P1) (S2 & C2 & P2). split; [eapply same_trans; eauto|]. split; [congruence|]. intros k K. rewrite P2, P1; auto.
  destruct K as [K|K]; [auto|]. right. destruct S1 as (_ & _ & -> & _). exact K.
Qed.
Lemma moved_set pl k v : state_kind k = true -> moved pl (set_state_ptr pl k v).
Proof.
  intros K. unfold set_state_ptr. destruct (pl_states pl) eqn:E; [|apply moved_refl]. split; [repeat split|]. split; [reflexivity|].
  intros j [J|J]; [|congruence]. cbn [with_ptr pl_ptr]. destruct k; try discriminate K; destruct j; try discriminate J; reflexivity.
Qed.

(** ** d3plot_open up to the states *)
(** Where the tables are; 0: there is no such table. *)
Definition table (titles : Z) (k : dkind) : Z :=
  match k with
  | K_TITLE => 0 | K_RUN_TIME => 10
  | K_NODE_COORDS | K_EL8_CONNECT | K_ELT_CONNECT | K_EL2_CONNECT | K_EL4_CONNECT => geometry_ptr b k 0
  | K_NODE_IDS | K_EL8_IDS | K_EL2_IDS | K_EL4_IDS | K_ELT_IDS | K_PART_IDS => ids_ptr b k 0
  | K_PART_TITLES => titles
  | _ => state_ptr k 0
  end.
Definition header_plot (titles : Z) (pl : plot) : Prop :=
  (forall f, pl_cd pl f = control_value b f) /\ pl_istrn pl = istrn_of b /\ pl_err pl = None /\ pl_states pl = [] /\ pl_initial pl = None /\
  (forall k, pl_ptr pl k = if state_kind k then 0 else table titles k).
Lemma fuel_ok c' p x : live c' p -> 0 <= x -> total b - x * d_ws b < Z.of_nat (loop_fuel (fst c')).
Proof. intros (Eb & _) X. rewrite Eb. unfold loop_fuel, total, all_bytes. destruct ws_cases; nia. Qed.
Lemma open_head titles hdr_end : blocks b (marker_pos b + 1) 0 hdr_end titles -> exists c pl, header_plot titles pl /\ live c hdr_end /\ 0 < p_pos (snd c) /\
  open_buffer b = (do ' (b', p, ok) <- next_file (fst c) (snd c);
    if negb ok then error_and_return (b', p) pl P_few_files else
    if err (b', p) then error_and_return (b', p) pl P_next_file else
    state_loop (loop_fuel b') (b', p) pl).
Proof.
  intros Bl. pose proof (order b Su) as (O1 & O2 & O3 & O4 & O5). pose proof (has_marker b Su) as Hm. pose proof (tot b So) as Tt.
  assert (M64 : 64 <= marker_pos b) by lia.
  unfold open_buffer.
  assert (L0 : exists c, seek b 0 = OK c /\ live c 0).
  { destruct (seek_in b 0 So) as (p & Q & A & W); [lia|destruct Hm as (_ & Hm); destruct ws_cases; lia|]. rewrite Q. exists (b, p). split; [reflexivity|]. split; [reflexivity|]. split; [exact A|]. split; [exact W|lia]. }
  destruct L0 as (c0 & Q0 & L0). rewrite Q0. cbn [bind].
  destruct (skip_to b Su c0 0 10 10 L0) as (c1 & Q1 & L1); [lia|lia|lia|]. rewrite Q1. cbn [bind]. assert (W1 : cw c1 = 10) by apply L1. rewrite W1.
  destruct (skip_to b Su c1 10 1 11 L1) as (c2 & Q2 & L2); [lia|lia|lia|]. rewrite Q2. cbn [bind].
  destruct (word_to b Su c2 11 L2) as (c3 & Q3 & L3); [lia|]. rewrite Q3. cbn [bind]. change (11 + 1) with 12 in L3.
  assert (Ft : ((if 1000 <? wd b 11 then wd b 11 - 1000 else wd b 11) =? 1) = true) by (destruct (su_type b Su) as [-> | ->]; reflexivity). rewrite Ft. cbn [negb].
  cbn [with_ptr start_plot pl_cd].
  destruct (control_live b Su c3 (fun _ => 0) L3) as (c4 & cd & Q4 & L4 & Cd & Cn). rewrite Q4. cbn [bind]. rewrite (live_err b Er c4 _ L4).
  destruct (derive_ok b Su cd Cd Cn) as (cd' & Qd & Cd'). rewrite Qd. cbn [bind]. clear Qd Cd Cn Q4.
  set (pl0 := with_istrn _ _).
  assert (P0 : (forall f, f <> NUMRBS -> pl_cd pl0 f = control_value b f) /\ pl_istrn pl0 = istrn_of b /\ pl_err pl0 = None /\ pl_states pl0 = [] /\ pl_initial pl0 = None /\ forall k, pl_ptr pl0 k = match k with K_RUN_TIME => 10 | _ => 0 end).
  { split; [exact Cd'|]. repeat split. intros k. destruct k; reflexivity. }
  clearbody pl0. destruct P0 as (C0 & I0 & E0 & S0 & N0 & T0). clear Cd'.
  unfold open_sections.
  destruct (geometry_live b Su c4 pl0 L4 C0) as (c5 & pl1 & Q5 & L5 & (B1 & I1 & S1 & E1 & N1) & C1 & T1). rewrite Q5. cbn [bind Z.eqb].
  destruct (ids_live b Su c5 pl1 L5) as (c6 & pl2 & Q6 & L6 & (B2 & I2 & S2 & E2 & N2) & C2 & T2); [intros f Nf; rewrite C1; auto|]. rewrite Q6. cbn [bind Z.eqb].
  destruct (extra_connectivity_live b Su c6 pl2 L6 C2) as (c7 & Q7 & L7). rewrite Q7. cbn [bind Z.eqb].
  destruct (adapted_live b Su c7 pl2 L7 C2) as (c8 & Q8 & L8). rewrite Q8. cbn [bind Z.eqb].
  unfold open_tail. destruct (word_to b Su c8 _ L8) as (c9 & Q9 & L9); [lia|]. rewrite Q9. cbn [bind]. rewrite (live_err b Er c9 _ L9), (live_ws b c9 _ L9). destruct (su_marker b Su) as (_ & Mk). rewrite Mk. cbn [negb].
  destruct (header_live _ _ _ _ Bl (loop_fuel (fst c9)) c9 pl2 L9) as (c10 & pl3 & Q10 & L10 & Pp & (B3 & I3 & S3 & E3 & N3) & C3 & T3); [eapply fuel_ok; [exact L9|lia]|rewrite T2; unfold ids_ptr; destruct (has_ids b); rewrite T1; cbn [geometry_ptr]; rewrite T0; reflexivity|].
  rewrite Q10. cbn [bind Z.eqb]. rewrite C3, C2. cbn [control_value]. destruct (Z.eqb_spec (cval b NCFDV1) 67108864) as [X|_]; [exfalso; apply (su_cfd b Su X)|].
  exists c10, pl3. split; [|split; [exact L10|]; split; [exact Pp|]; reflexivity].
  split; [intros f; rewrite C3; apply C2|]. split; [congruence|]. split; [congruence|]. split; [congruence|]. split; [congruence|].
  intros k. rewrite T3. destruct k; cbn [titles_ptr state_kind table geometry_ptr]; rewrite ?T2, ?T1, ?T0; try reflexivity; unfold ids_ptr; destruct (has_ids b); cbn [geometry_ptr]; rewrite ?T1, ?T0; reflexivity.
Qed.

Lemma ptr_set pl k v j : pl_states pl = [] -> pl_ptr (set_state_ptr pl k v) j = if dkind_beq k j then v else pl_ptr pl j.
Proof. intros E. unfold set_state_ptr. rewrite E. reflexivity. Qed.
Lemma ptr_if (g : bool) pl k v j : pl_states pl = [] -> pl_ptr (if g then pl else set_state_ptr pl k v) j = if negb g && dkind_beq k j then v else pl_ptr pl j.
Proof. intros E. destruct g; [reflexivity|]. cbn [negb andb]. apply ptr_set. exact E. Qed.
Lemma vec_reach start c pl f k p v n : reach c p -> pl_cd pl f = v -> pl_cd pl NUMNP = n -> 0 <= n -> 0 <= 3 * n * flag v < 2 ^ 60 -> (p + 3 * n * flag v) * d_ws b < 2 ^ 64 ->
  exists c', state_vec start c pl f k = OK (c', if v =? 0 then pl else set_state_ptr pl k (u64 (cw c - start))) /\ reach c' (p + 3 * n * flag v).
Proof.
  intros Rc Ev En N B1 B2. unfold state_vec. rewrite Ev, En. clear Ev. unfold flag in *. destruct (Z.eqb_spec v 0); cbn [negb].
  - exists c. split; [reflexivity|]. rewrite Z.mul_0_r, Z.add_0_r. exact Rc.
  - rewrite Z.mul_1_r in *. rewrite (u64_id (3 * n)) by lia.
    destruct (skip_reach b So c p (3 * n) Rc) as (c' & Q & R'); [lia|lia|]. rewrite Q. cbn [bind]. eauto.
Qed.
Lemma elem_reach start c pl k p n : reach c p -> 0 <= n < 2 ^ 60 -> (p + n) * d_ws b < 2 ^ 64 ->
  exists c', state_elem start c pl k n = OK (c', set_state_ptr pl k (u64 (cw c - start))) /\ reach c' (p + n).
Proof.
  intros Rc N B. unfold state_elem. rewrite u64_id by lia. destruct (skip_reach b So c p n Rc) as (c' & Q & R'); [lia|lia|]. rewrite Q. cbn [bind]. eauto.
Qed.
Lemma dead_clear c : dead c -> clear_err (fst c) = b.
Proof. intros (e & ->). cbn [fst]. unfold clear_err, set_err. destruct b as [fl w er] eqn:Eb. cbn in *. rewrite Er. reflexivity. Qed.

Context (Rg : regular_states b).
Lemma flag_cases f : In f [IU; IV; IA] -> flag (cval b f) = cval b f /\ 0 <= cval b f <= 1.
Proof. intros I. unfold flag. destruct (re_flags b Rg f I) as [-> | ->]; cbn; lia. Qed.
Lemma deletion_nonneg : 0 <= deletion b.
Proof.
  unfold deletion, mdlopt_of. pose proof (su_nel8 b Su). nn NUMNP. nn NELT. nn NEL4. nn NEL2. destruct (cval b MAXINT <? -10000); [lia|]. destruct (cval b MAXINT <? 0); lia.
Qed.
Lemma state_order : 7 <= s_coords b <= s_vel b /\ s_vel b <= s_acc b <= s_therm b /\ s_therm b <= s_solid b <= s_beam b /\ s_beam b <= s_shell b <= s_tshell b /\ s_tshell b <= s_del b <= state_size b /\ state_size b < 2 ^ 60.
Proof.
  pose proof (re_size b Rg). pose proof (su_nel8 b Su). pose proof deletion_nonneg. pose proof (re_global b Rg). unfold global_minimum in *. pose proof (numrbs_nonneg b Su).
  nn NUMMAT8. nn NUMMAT2. nn NUMMAT4. nn NUMMATT. nn NUMNP. nn NT3D. nn NV3D. nn NV1D. nn NV2D. nn NV3DT. nn NELT. nn NEL4. nn NEL2.
  destruct (flag_cases IU ltac:(cbn; tauto)) as (F1 & F1'). destruct (flag_cases IV ltac:(cbn; tauto)) as (F2 & F2'). destruct (flag_cases IA ltac:(cbn; tauto)) as (F3 & F3').
  assert (s_coords b = 1 + cval b NGLBV) by reflexivity. assert (s_vel b = s_coords b + 3 * cval b NUMNP * flag (cval b IU)) by reflexivity. assert (s_acc b = s_vel b + 3 * cval b NUMNP * flag (cval b IV)) by reflexivity.
  assert (s_therm b = s_acc b + 3 * cval b NUMNP * flag (cval b IA)) by reflexivity. assert (s_solid b = s_therm b + cval b NT3D * cval b NEL8) by reflexivity.
  assert (s_beam b = s_solid b + cval b NV3D * cval b NEL8) by reflexivity. assert (s_shell b = s_beam b + cval b NV1D * cval b NEL2) by reflexivity. assert (s_tshell b = s_shell b + cval b NV2D * cval b NEL4) by reflexivity.
  assert (s_del b = s_tshell b + cval b NV3DT * cval b NELT) by reflexivity. assert (state_size b = s_del b + deletion b) by reflexivity.
  assert (0 <= 3 * cval b NUMNP * flag (cval b IU)) by nia. assert (0 <= 3 * cval b NUMNP * flag (cval b IV)) by nia. assert (0 <= 3 * cval b NUMNP * flag (cval b IA)) by nia.
  assert (0 <= cval b NT3D * cval b NEL8) by nia. assert (0 <= cval b NV3D * cval b NEL8) by nia. assert (0 <= cval b NV1D * cval b NEL2) by nia. assert (0 <= cval b NV2D * cval b NEL4) by nia. assert (0 <= cval b NV3DT * cval b NELT) by nia.
  lia.
Qed.

Lemma state_eof c pl pos : live c pos -> has b pos -> is_eof (d_ws b) (wd b pos) = true ->
  exists c', read_state c pl = OK (c', pl, 2) /\ live c' (pos + 1) /\ 0 < p_pos (snd c').
Proof.
  intros L H E. unfold read_state. cbv zeta. destruct (word_live b So Al Er c pos L H) as (c1 & Q & L1 & Pp). rewrite Q. cbn [bind].
  rewrite (live_err b Er c1 _ L1), (live_ws b c1 _ L1), E. eauto.
Qed.

Lemma read_state_spec c pl pos : live c pos -> has b pos -> is_eof (d_ws b) (wd b pos) = false -> (forall f, pl_cd pl f = control_value b f) ->
  exists c' pl' r, read_state c pl = OK (c', pl', r) /\
   (below b (pos + state_size b) -> r = 1 /\ live c' (pos + state_size b) /\
      exists pl1, pl' = add_state pl1 pos /\ moved pl pl1 /\ (pl_states pl = [] -> forall k, pl_ptr pl' k = state_ptr k (pl_ptr pl k))) /\
   (~ below b (pos + state_size b) -> r = 0 /\ fst c' = b /\ moved pl pl').
Proof.
  intros L H E C.
  assert (Cut : forall c' pl' p, reach c' p -> ~ below b p -> p <= pos + state_size b -> moved pl pl' ->
    exists c2 pl2 r, quiet c' pl' = OK (c2, pl2, r) /\
     (below b (pos + state_size b) -> r = 1 /\ live c2 (pos + state_size b) /\
      exists pl1, pl2 = add_state pl1 pos /\ moved pl pl1 /\ (pl_states pl = [] -> forall k, pl_ptr pl2 k = state_ptr k (pl_ptr pl k))) /\
     (~ below b (pos + state_size b) -> r = 0 /\ fst c2 = b /\ moved pl pl2)).
  { intros c' pl' p Rc Nb Le Mv. eexists _, _, _. split; [reflexivity|]. split; [intros B; exfalso; apply Nb; eapply below_le; eauto|]. intros _. split; [reflexivity|]. split; [|exact Mv].
    cbn [fst]. apply dead_clear. apply Rc. exact Nb. }
  pose proof state_order as (T1 & T2 & T3 & T4 & T5 & T6). pose proof (live_bound b So c pos L) as (Lb & Lb2). assert (P0 : 0 <= pos) by apply L. pose proof (tot b So) as Tt.
  assert (Fit : forall p, p <= pos + state_size b -> p * d_ws b < 2 ^ 64) by (intros p Hp; destruct ws_cases as [Wc|Wc]; rewrite Wc in *; lia).
  pose proof (su_nel8 b Su) as N8. pose proof deletion_nonneg as Dn. pose proof (re_global b Rg) as Gl. unfold global_minimum in Gl. pose proof (numrbs_nonneg b Su) as Nr.
  nn NUMMAT8. nn NUMMAT2. nn NUMMAT4. nn NUMMATT. nn NUMNP. nn NT3D. nn NV3D. nn NV1D. nn NV2D. nn NV3DT. nn NELT. nn NEL4. nn NEL2.
  unfold read_state. destruct (word_live b So Al Er c pos L H) as (c1 & Q & L1 & _). rewrite Q. cbn [bind].
  rewrite (live_err b Er c1 _ L1), (live_ws b c1 _ L1), E. cbv zeta. rewrite !C. cbn [control_value].
  assert (W0 : cw c = pos) by apply L. assert (W1 : cw c1 = pos + 1) by apply L1. rewrite W0, W1.
  set (m8 := cval b NUMMAT8) in *. set (m2 := cval b NUMMAT2) in *. set (m4 := cval b NUMMAT4) in *. set (mt := cval b NUMMATT) in *. set (mr := numrbs b) in *.
  assert (Sc : s_coords b = 1 + cval b NGLBV) by reflexivity.
  match goal with |- context [skips c1 ?l] => assert (Sm : sum l = 6 + 7 * (m8 + m2 + m4 + mt + mr)) by (cbn [sum app]; lia); assert (Fl : Forall (fun n => 0 <= n) l) by (repeat constructor; assumption || lia) end.
  match goal with |- context [skips c1 ?l] => destruct (skips_live b So l c1 (pos + 1) L1) as (c2 & Q2 & R2); [discriminate|exact Fl|rewrite Sm; apply Fit; lia|] end. rewrite Q2. cbn [bind]. rewrite Sm in R2. clear Q2 Sm Fl.
  destruct (below_dec b (pos + 1 + (6 + 7 * (m8 + m2 + m4 + mt + mr)))) as [B2|B2]; [|rewrite (proj2 (reach_err b Er c2 _ R2) B2); eapply Cut; eauto using moved_refl; lia].
  apply (reach_live b) in R2; auto. rewrite (live_err b Er c2 _ R2).
  rewrite (u64_id (cval b NGLBV - 6 - 7 * _)) by lia.
  destruct (skip_live b So c2 _ (cval b NGLBV - 6 - 7 * (m8 + m2 + m4 + mt + mr)) R2) as (c3 & Q3 & R3); [lia|apply Fit; lia|]. rewrite Q3. cbn [bind]. clear Q3.
  replace (pos + 1 + (6 + 7 * (m8 + m2 + m4 + mt + mr)) + (cval b NGLBV - 6 - 7 * (m8 + m2 + m4 + mt + mr))) with (pos + s_coords b) in R3 by lia.
  destruct (below_dec b (pos + s_coords b)) as [B3|B3]; [|rewrite (proj2 (reach_err b Er c3 _ R3) B3); eapply Cut; eauto using moved_refl; lia].
  pose proof (reach_live b c3 _ R3 B3) as L3. rewrite (live_err b Er c3 _ L3). assert (W3 : cw c3 = pos + s_coords b) by apply L3. rewrite !W3.
  rewrite (u64_id (pos + s_coords b - (pos + 1))) by lia. replace (pos + s_coords b - (pos + 1)) with (cval b NGLBV) by lia. rewrite Z.eqb_refl. cbn [negb].
  rewrite (su_zero b Su IT) by (cbn; tauto). change (nth_digit 0 0) with (OK 0). change (nth_digit 0 1) with (OK 0). cbn [bind Z.ltb Z.compare Z.eqb].
  destruct (flag_cases IU ltac:(cbn; tauto)) as (F1 & F1'). destruct (flag_cases IV ltac:(cbn; tauto)) as (F2 & F2'). destruct (flag_cases IA ltac:(cbn; tauto)) as (F3 & F3').
  assert (Ev : s_vel b = s_coords b + 3 * cval b NUMNP * flag (cval b IU)) by reflexivity. assert (Ea : s_acc b = s_vel b + 3 * cval b NUMNP * flag (cval b IV)) by reflexivity.
  assert (Et : s_therm b = s_acc b + 3 * cval b NUMNP * flag (cval b IA)) by reflexivity.
  destruct (vec_reach pos c3 pl IU K_STATE_NODE_COORDS _ (cval b IU) (cval b NUMNP) R3) as (c4 & Q4 & R4); try (rewrite C; reflexivity); try lia; [apply Fit; lia|].
  rewrite Q4. cbn [bind]. clear Q4. rewrite <- Z.add_assoc, <- Ev in R4. rewrite W3.
  set (pl1 := if cval b IU =? 0 then pl else _) in *.
  assert (M1 : moved pl pl1) by (unfold pl1; destruct (cval b IU =? 0); [apply moved_refl|apply moved_set; reflexivity]).
  assert (C1 : forall f, pl_cd pl1 f = control_value b f) by (intros f; destruct M1 as (_ & -> & _); apply C).
  destruct (vec_reach pos c4 pl1 IV K_STATE_NODE_VEL _ (cval b IV) (cval b NUMNP) R4) as (c5 & Q5 & R5); try (rewrite C1; reflexivity); try lia; [apply Fit; lia|].
  rewrite Q5. cbn [bind]. clear Q5. rewrite <- Z.add_assoc, <- Ea in R5.
  set (pl2 := if cval b IV =? 0 then pl1 else _) in *.
  assert (M2 : moved pl1 pl2) by (unfold pl2; destruct (cval b IV =? 0); [apply moved_refl|apply moved_set; reflexivity]).
  assert (C2 : forall f, pl_cd pl2 f = control_value b f) by (intros f; destruct M2 as (_ & -> & _); apply C1).
  destruct (vec_reach pos c5 pl2 IA K_STATE_NODE_ACC _ (cval b IA) (cval b NUMNP) R5) as (c6 & Q6 & R6); try (rewrite C2; reflexivity); try lia; [apply Fit; lia|].
  rewrite Q6. cbn [bind]. clear Q6. rewrite <- Z.add_assoc, <- Et in R6.
  set (pl3 := if cval b IA =? 0 then pl2 else _) in *.
  assert (M3 : moved pl2 pl3) by (unfold pl3; destruct (cval b IA =? 0); [apply moved_refl|apply moved_set; reflexivity]).
  assert (M03 : moved pl pl3) by (eapply moved_trans; [exact M1|]; eapply moved_trans; eauto).
  destruct (below_dec b (pos + s_therm b)) as [B6|B6]; [|rewrite (proj2 (reach_err b Er c6 _ R6) B6); eapply Cut; eauto; lia].
  pose proof (reach_live b c6 _ R6 B6) as L6. rewrite (live_err b Er c6 _ L6). assert (W6 : cw c6 = pos + s_therm b) by apply L6. rewrite W6.
  replace (pos + s_therm b - (pos + s_coords b)) with (s_therm b - s_coords b) by lia. rewrite (u64_id (s_therm b - s_coords b)) by lia.
  replace ((0 + 0 + 0 + 3 * (cval b IU + cval b IV + cval b IA)) * cval b NUMNP) with (s_therm b - s_coords b) by (rewrite Et, Ea, Ev, F1, F2, F3; ring).
  rewrite (u64_id (s_therm b - s_coords b)) by lia. rewrite Z.eqb_refl. cbn [negb].
  assert (Es : s_solid b = s_therm b + cval b NT3D * cval b NEL8) by reflexivity.
  assert (Eb : s_beam b = s_solid b + cval b NV3D * cval b NEL8) by reflexivity. assert (Eh : s_shell b = s_beam b + cval b NV1D * cval b NEL2) by reflexivity. assert (Ek : s_tshell b = s_shell b + cval b NV2D * cval b NEL4) by reflexivity.
  assert (Ed : s_del b = s_tshell b + cval b NV3DT * cval b NELT) by reflexivity. assert (Ez : state_size b = s_del b + deletion b) by reflexivity.
  rewrite (u64_id (cval b NT3D * cval b NEL8)) by lia.
  destruct (skip_live b So c6 _ (cval b NT3D * cval b NEL8) L6) as (c7 & Q7 & R7); [lia|apply Fit; lia|]. rewrite Q7. cbn [bind]. clear Q7. rewrite <- Z.add_assoc, <- Es in R7.
  destruct (below_dec b (pos + s_solid b)) as [B7|B7]; [|rewrite (proj2 (reach_err b Er c7 _ R7) B7); eapply Cut; eauto; lia].
  pose proof (reach_live b c7 _ R7 B7) as L7. rewrite (live_err b Er c7 _ L7). assert (W7 : cw c7 = pos + s_solid b) by apply L7. rewrite W7.
  destruct (elem_reach pos c7 pl3 K_STATE_SOLID _ (cval b NV3D * cval b NEL8) R7) as (c8 & Q8 & R8); [lia|apply Fit; lia|]. rewrite Q8. cbn [bind]. clear Q8. rewrite <- Z.add_assoc, <- Eb in R8. rewrite W7.
  match goal with |- context [state_elem pos c8 ?p] => set (pl4 := p) in * end. assert (M4 : moved pl3 pl4) by (apply moved_set; reflexivity).
  destruct (elem_reach pos c8 pl4 K_STATE_BEAM _ (cval b NV1D * cval b NEL2) R8) as (c9 & Q9 & R9); [lia|apply Fit; lia|]. rewrite Q9. cbn [bind]. clear Q9. rewrite <- Z.add_assoc, <- Eh in R9.
  match goal with |- context [state_elem pos c9 ?p] => set (pl5 := p) in * end. assert (M5 : moved pl4 pl5) by (apply moved_set; reflexivity).
  destruct (elem_reach pos c9 pl5 K_STATE_SHELL _ (cval b NV2D * cval b NEL4) R9) as (c10 & Q10 & R10); [lia|apply Fit; lia|]. rewrite Q10. cbn [bind]. clear Q10. rewrite <- Z.add_assoc, <- Ek in R10.
  match goal with |- context [state_elem pos c10 ?p] => set (pl6 := p) in * end. assert (M6 : moved pl5 pl6) by (apply moved_set; reflexivity).
  destruct (elem_reach pos c10 pl6 K_STATE_THICK_SHELL _ (cval b NV3DT * cval b NELT) R10) as (c11 & Q11 & R11); [lia|apply Fit; lia|]. rewrite Q11. cbn [bind]. clear Q11. rewrite <- Z.add_assoc, <- Ed in R11.
  match goal with |- context [quiet c11 ?p] => set (pl7 := p) in * end. assert (M7 : moved pl6 pl7) by (apply moved_set; reflexivity).
  assert (M07 : moved pl pl7). { eapply moved_trans; [exact M03|]. eapply moved_trans; [exact M4|]. eapply moved_trans; [exact M5|]. eapply moved_trans; [exact M6|exact M7]. }
  destruct (below_dec b (pos + s_del b)) as [B11|B11]; [|rewrite (proj2 (reach_err b Er c11 _ R11) B11); eapply Cut; eauto; lia].
  pose proof (reach_live b c11 _ R11 B11) as L11. rewrite (live_err b Er c11 _ L11). assert (W11 : cw c11 = pos + s_del b) by apply L11. rewrite W11.
  replace (pos + s_del b - (pos + s_solid b)) with (s_del b - s_solid b) by lia. rewrite (u64_id (s_del b - s_solid b)) by lia.
  replace (cval b NEL8 * cval b NV3D + cval b NELT * cval b NV3DT + cval b NEL2 * cval b NV1D + cval b NEL4 * cval b NV2D) with (s_del b - s_solid b) by (rewrite Ed, Ek, Eh, Eb; ring).
  rewrite (u64_id (s_del b - s_solid b)) by lia. rewrite Z.ltb_irrefl.
  assert (Ptr : below b (pos + state_size b) -> pl_states pl = [] -> forall k, pl_ptr (add_state pl7 pos) k = state_ptr k (pl_ptr pl k)).
  { intros Bf Sn. assert (At : forall c' p, reach c' (pos + p) -> p <= state_size b -> u64 (cw c' - pos) = u64 (pos + p - pos)).
    { intros c' p Rp Pp. f_equal. f_equal. apply (reach_live b c' _ Rp). eapply (below_le b Su); [exact Bf|lia]. }
    assert (Id : forall p, 0 <= p <= state_size b -> u64 (pos + p - pos) = p) by (intros p Pp; replace (pos + p - pos) with p by lia; apply u64_id; lia).
    assert (S1 : pl_states pl1 = []) by (destruct M1 as ((_ & _ & X & _) & _); congruence). assert (S2 : pl_states pl2 = []) by (destruct M2 as ((_ & _ & X & _) & _); congruence).
    assert (S3 : pl_states pl3 = []) by (destruct M3 as ((_ & _ & X & _) & _); congruence). assert (S4 : pl_states pl4 = []) by (destruct M4 as ((_ & _ & X & _) & _); congruence).
    assert (S5 : pl_states pl5 = []) by (destruct M5 as ((_ & _ & X & _) & _); congruence). assert (S6 : pl_states pl6 = []) by (destruct M6 as ((_ & _ & X & _) & _); congruence).
    intros k. cbn [add_state pl_ptr]. unfold pl7. rewrite ptr_set by exact S6. unfold pl6. rewrite ptr_set by exact S5. unfold pl5. rewrite ptr_set by exact S4. unfold pl4. rewrite ptr_set by exact S3.
    rewrite (At c8 _ R8), (At c9 _ R9), (At c10 _ R10) by lia. unfold pl3. rewrite (ptr_if _ _ _ _ _ S2), (At c5 _ R5) by lia. unfold pl2. rewrite (ptr_if _ _ _ _ _ S1), (At c4 _ R4) by lia. unfold pl1. rewrite (ptr_if _ _ _ _ _ Sn).
    rewrite !Id by lia. unfold state_ptr. destruct k; cbn [dkind_beq]; rewrite ?andb_false_r, ?andb_true_r; try reflexivity; match goal with |- context [cval b ?f =? 0] => destruct (cval b f =? 0) end; reflexivity. }
  clearbody pl7. clear pl1 pl2 pl3 pl4 pl5 pl6 M1 M2 M3 M4 M5 M6 M7 C1 C2 M03 R3 R4 R5 R6 R7 R8 R9 R10.
  match goal with |- context [match ?o with Some _ => _ | None => _ end] => assert (Od : o = Some (deletion b)) end.
  { assert (Db : deletion b < 2 ^ 60) by lia. clear - Db Dn. unfold deletion, mdlopt_of in *. destruct (cval b MAXINT <? -10000); [|destruct (cval b MAXINT <? 0)]; cbn [Z.eqb Pos.eqb]; [|reflexivity|reflexivity].
    f_equal. apply u64_id. lia. }
  rewrite Od. clear Od.
  assert (X : exists c12, (if 0 <? deletion b then skip c11 (deletion b) else OK c11) = OK c12 /\ reach c12 (pos + state_size b)).
  { destruct (Z.ltb_spec 0 (deletion b)).
    - destruct (skip_live b So c11 _ (deletion b) L11) as (c12 & Q12 & R12); [lia|apply Fit; lia|]. exists c12. split; [exact Q12|]. rewrite Ez, Z.add_assoc. exact R12.
    - exists c11. split; [reflexivity|]. replace (state_size b) with (s_del b) by lia. exact R11. }
  destruct X as (c12 & -> & R12). cbn [bind].
  destruct (below_dec b (pos + state_size b)) as [B12|B12]; [|rewrite (proj2 (reach_err b Er c12 _ R12) B12); eapply Cut; eauto; lia].
  pose proof (reach_live b c12 _ R12 B12) as L12. rewrite (live_err b Er c12 _ L12). eexists _, _, _. split; [reflexivity|]. split; [|intros X; contradiction].
  intros _. split; [reflexivity|]. split; [exact L12|]. exists pl7. split; [reflexivity|]. split; [exact M07|]. exact (Ptr B12).
Qed.

(** ** All states *)
Definition loop_result (pl pl' : plot) (l : list Z) : Prop :=
  pl_buf pl' = b /\ pl_cd pl' = pl_cd pl /\ pl_istrn pl' = pl_istrn pl /\ pl_err pl' = pl_err pl /\ pl_initial pl' = pl_initial pl /\ pl_states pl' = pl_states pl ++ l /\
  (forall k, state_kind k = false \/ pl_states pl <> [] -> pl_ptr pl' k = pl_ptr pl k) /\
  (forall k, pl_states pl = [] -> l <> [] -> pl_ptr pl' k = state_ptr k (pl_ptr pl k)).

Lemma file_end_after i q more : has b i -> file_end b i q more -> i * d_ws b < q * d_ws b.
Proof. intros _ (pre & f & post & _ & I & Q & _). lia. Qed.
Lemma file_end_in i q more : file_end b i q more -> q * d_ws b <= total b.
Proof.
  intros (pre & f & post & E & _ & Q & _). pose proof (split_total b pre f post E). pose proof (good_in b pre f post So E) as (G & _). unfold before, zlen in *. lia.
Qed.

Lemma state_loop_live pos l : states_from b pos l -> forall fuel c pl, live c pos -> total b - pos * d_ws b < Z.of_nat fuel -> (forall f, pl_cd pl f = control_value b f) ->
  exists pl', state_loop fuel c pl = OK pl' /\ loop_result pl pl' l.
Proof.
  pose proof state_order as So'. induction 1 as [pos l H E B _ IH|pos H E B|pos q l H E Fe _ IH|pos q H E Fe]; intros fuel c pl L F C;
    (destruct fuel as [|fuel]; [exfalso; pose proof (live_bound b So c pos L); lia|]); cbn [state_loop].
  - destruct (read_state_spec c pl pos L H E C) as (c' & pl' & r & Q & Full & _). rewrite Q. cbn [bind]. destruct (Full B) as (-> & L' & pl1 & -> & (Sm & Cd & Pt) & Ps). cbn [Z.eqb Pos.eqb].
    destruct Sm as (Sb & Si & Ss & Se & Sn).
    destruct (IH fuel c' (add_state pl1 pos) L') as (pl' & Q' & Rb & Rc & Ri & Re & Rn & Rs & Rp & _); [destruct ws_cases; unfold below in B; nia|intros f; cbn [add_state pl_cd]; rewrite Cd; apply C|].
    cbn [add_state pl_cd pl_istrn pl_err pl_initial pl_states pl_ptr] in *.
    exists pl'. split; [exact Q'|]. assert (Nn : pl_states pl1 ++ [pos] <> []) by (destruct (pl_states pl1); discriminate).
    split; [exact Rb|]. split; [congruence|]. split; [congruence|]. split; [congruence|]. split; [congruence|]. split; [rewrite Rs, Ss, <- app_assoc; reflexivity|]. split.
    + intros k K. rewrite (Rp k (or_intror Nn)). apply Pt. exact K.
    + intros k K _. rewrite (Rp k (or_intror Nn)). apply Ps. exact K.
  - destruct (read_state_spec c pl pos L H E C) as (c' & pl' & r & Q & _ & Cut). rewrite Q. cbn [bind]. destruct (Cut B) as (-> & Eb & (Sm & Cd & Pt)). cbn [Z.eqb].
    destruct Sm as (Sb & Si & Ss & Se & Sn). eexists. split; [reflexivity|]. rewrite Eb. unfold loop_result. cbn [with_buf pl_buf pl_cd pl_istrn pl_err pl_initial pl_states pl_ptr].
    rewrite app_nil_r. repeat split; auto. congruence.
  - destruct (state_eof c pl pos L H E) as (c' & Q & L' & Pp). rewrite Q. cbn [bind Z.eqb Pos.eqb].
    destruct (next_file_live b So Al c' pos q true L' Pp Fe) as (c2 & Q2 & E2 & L2 & _). rewrite Q2. cbn [bind negb]. specialize (L2 eq_refl).
    rewrite <- (surjective_pairing c2). rewrite (live_err b Er c2 _ L2). apply (IH fuel c2 pl L2); [|exact C]. pose proof (file_end_after pos q true H Fe). lia.
  - destruct (state_eof c pl pos L H E) as (c' & Q & L' & Pp). rewrite Q. cbn [bind Z.eqb Pos.eqb].
    destruct (next_file_live b So Al c' pos q false L' Pp Fe) as (c2 & Q2 & E2 & _). rewrite Q2. cbn [bind negb]. rewrite E2.
    eexists. split; [reflexivity|]. unfold loop_result. cbn [with_buf pl_buf pl_cd pl_istrn pl_err pl_initial pl_states pl_ptr]. rewrite app_nil_r. repeat split; auto. congruence.
Qed.


Lemma open_live titles states : layout b titles states -> exists pl, open_buffer b = OK pl /\ pl_err pl = None /\ pl_buf pl = b /\ (forall f, pl_cd pl f = control_value b f) /\
  pl_istrn pl = istrn_of b /\ pl_initial pl = None /\ pl_states pl = states /\ forall k, state_kind k = false \/ states <> [] -> pl_ptr pl k = table titles k.
Proof.
  intros (hdr_end & q & Bl & Fe & St). destruct (open_head titles hdr_end Bl) as (c10 & pl3 & (C3 & I3 & E3 & S3 & N3 & T3) & L10 & Pp & ->).
  replace hdr_end with (hdr_end - 1 + 1) in L10 by lia.
  destruct (next_file_live b So Al c10 (hdr_end - 1) q true L10 Pp Fe) as (c11 & Q11 & E11 & L11 & _). rewrite Q11. cbn [bind negb]. specialize (L11 eq_refl).
  rewrite <- (surjective_pairing c11). rewrite (live_err b Er c11 _ L11).
  destruct (state_loop_live q states St (loop_fuel (fst c11)) c11 pl3 L11) as (pl & Q12 & Rb & Rc & Ri & Re & Rn & Rs & Rp & Rq); [eapply fuel_ok; [exact L11|apply L11]|exact C3|].
  exists pl. split; [exact Q12|]. split; [congruence|]. split; [exact Rb|]. split; [intros f; rewrite Rc; apply C3|]. split; [congruence|]. split; [congruence|]. split; [rewrite Rs, S3; reflexivity|].
  intros k K. destruct (state_kind k) eqn:Sk.
  - destruct K as [K|K]; [discriminate K|]. rewrite (Rq k S3 K), T3. destruct k; try discriminate Sk; reflexivity.
  - rewrite (Rp k (or_introl Sk)), T3, Sk. reflexivity.
Qed.

Lemma table_head titles : consecutive (table titles) 0 (head_tables b) (geometry_end b) /\ geometry_end b <= ids_end b <= marker_pos b.
Proof.
  pose proof (order b Su) as (O1 & O2 & O3 & O4 & O5). pose proof (su_nel8 b Su). nn NUMNP. nn NELT. nn NEL2. nn NEL4. split; [|lia].
  unfold head_tables. cbn [consecutive table geometry_ptr].
  split; [lia|]. split; [reflexivity|]. split; [lia|]. split; [reflexivity|]. split; [lia|]. split; [exact I|].
  replace (0 + 10 + 1 + (control_end b - 11)) with (control_end b) by lia.
  split; [lia|]. split; [reflexivity|]. fold (g_el8 b). split; [lia|]. split; [reflexivity|]. fold (g_elt b).
  split; [lia|]. split; [intros X; destruct (Z.ltb_spec 0 (cval b NELT)); [reflexivity|lia]|]. fold (g_el2 b).
  split; [lia|]. split; [intros X; destruct (Z.ltb_spec 0 (cval b NEL2)); [reflexivity|lia]|]. fold (g_el4 b).
  split; [lia|]. split; [intros X; destruct (Z.ltb_spec 0 (cval b NEL4)); [reflexivity|lia]|]. reflexivity.
Qed.
Lemma table_ids titles : has_ids b = true -> consecutive (table titles) (geometry_end b) (id_tables b) (ids_end b).
Proof.
  intros Hi. pose proof (su_nel8 b Su). nn NUMNP. nn NELT. nn NEL2. nn NEL4. pose proof (ids_nmmat_nonneg b Su).
  assert (I0 : ids_start b = geometry_end b + (if part_ids_present b then 16 else 10)) by reflexivity.
  assert (I1 : i_el8 b = ids_start b + cval b NUMNP) by reflexivity. assert (I2 : i_el2 b = i_el8 b + cval b NEL8) by reflexivity. assert (I3 : i_el4 b = i_el2 b + cval b NEL2) by reflexivity.
  assert (I4 : i_elt b = i_el4 b + cval b NEL4) by reflexivity. assert (I5 : i_parts b = i_elt b + cval b NELT) by reflexivity.
  assert (I6 : ids_end b = i_parts b + 3 * ids_nmmat b) by (unfold ids_end; rewrite Hi; reflexivity).
  unfold id_tables. cbn [consecutive]. rewrite <- I0, <- I1, <- I2, <- I3, <- I4, <- I5, <- I6. clear I0 I1 I2 I3 I4 I5 I6. unfold table, ids_ptr. rewrite Hi.
  split; [destruct (part_ids_present b); lia|]. split; [exact I|].
  split; [lia|]. split; [reflexivity|]. split; [lia|]. split; [reflexivity|]. split; [lia|]. split; [reflexivity|]. split; [lia|]. split; [reflexivity|]. split; [lia|]. split; [reflexivity|]. split; [lia|].
  split; [|reflexivity]. destruct (part_ids_present b) eqn:Pp; [|exact I]. intros _. reflexivity.
Qed.
Lemma table_state titles : consecutive (table titles) 0 (state_tables b) (state_size b).
Proof.
  pose proof state_order as (T1 & T2 & T3 & T4 & T5 & T6).
  destruct (flag_cases IU ltac:(cbn; tauto)) as (F1 & F1'). destruct (flag_cases IV ltac:(cbn; tauto)) as (F2 & F2'). destruct (flag_cases IA ltac:(cbn; tauto)) as (F3 & F3').
  pose proof (su_nel8 b Su). nn NUMNP. nn NELT. nn NEL2. nn NEL4. nn NGLBV. nn NT3D. nn NV3D. nn NV1D. nn NV2D. nn NV3DT. pose proof deletion_nonneg.
  assert (E1 : s_coords b = 0 + 1 + cval b NGLBV) by (unfold s_coords; lia).
  assert (E2 : s_vel b = s_coords b + 3 * cval b NUMNP * cval b IU) by (unfold s_vel; rewrite F1; reflexivity).
  assert (E3 : s_acc b = s_vel b + 3 * cval b NUMNP * cval b IV) by (unfold s_acc; rewrite F2; reflexivity).
  assert (E4 : s_therm b = s_acc b + 3 * cval b NUMNP * cval b IA) by (unfold s_therm; rewrite F3; reflexivity).
  assert (P : forall x y, 0 <= x -> 0 <= y -> 0 <= x * y) by (intros x y; apply Z.mul_nonneg_nonneg).
  unfold state_tables. cbn [consecutive table state_ptr]. rewrite <- E1, <- E2, <- E3, <- E4. fold (s_solid b) (s_beam b) (s_shell b) (s_tshell b) (s_del b) (state_size b).
  assert (Fl : forall v, 0 < 3 * cval b NUMNP * v -> (v =? 0) = false) by (intros v X; apply Z.eqb_neq; intros ->; lia).
  assert (N1 : 0 <= 3 * cval b NUMNP * cval b IU) by lia. assert (N2 : 0 <= 3 * cval b NUMNP * cval b IV) by lia. assert (N3 : 0 <= 3 * cval b NUMNP * cval b IA) by lia.
  repeat split; auto; try lia; intros X; rewrite Fl by exact X; reflexivity.
Qed.

(** The states do not overlap. *)
Lemma states_apart pos l : states_from b pos l -> forall i p, nth_error l i = Some p -> pos <= p /\ below b (p + state_size b) /\ is_eof (d_ws b) (wd b p) = false /\
  forall j p', (i < j)%nat -> nth_error l j = Some p' -> p + state_size b <= p'.
Proof.
  pose proof state_order as So'. induction 1 as [pos l H E B _ IH|pos H E B|pos q l H E Fe _ IH|pos q H E Fe]; intros i p N; try (destruct i; discriminate N).
  - destruct i as [|i]; cbn [nth_error] in N.
    + injection N as <-. split; [lia|]. split; [exact B|]. split; [exact E|]. intros [|j] p' J N'; [lia|]. cbn [nth_error] in N'. apply IH in N' as (N' & _). exact N'.
    + destruct (IH i p N) as (A1 & A2 & A3 & A4). split; [lia|]. split; [exact A2|]. split; [exact A3|]. intros [|j] p' J N'; [lia|]. apply (A4 j); [lia|exact N'].
  - destruct (IH i p N) as (A1 & A2). split; [|exact A2]. pose proof (file_end_after pos q true H Fe). destruct ws_cases; nia.
Qed.
End States.
