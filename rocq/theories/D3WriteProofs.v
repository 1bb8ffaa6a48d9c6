(** * Proofs about written d3plots *)
From Verif Require Import CBase CBaseFacts BinModel D3BufModel D3BufSpec D3BufProofs D3Model D3Spec D3CurProofs D3ReadModel D3ReadSpec D3ElemModel D3ElemSpec D3WriteSpec.
Open Scope Z_scope.

(** ** Lengths *)
Lemma len_nil A : len (@nil A) = 0. Proof. reflexivity. Qed.
Lemma len_cons A (x : A) l : len (x :: l) = 1 + len l. Proof. unfold len. cbn [length]. lia. Qed.
Lemma len_app A (a c : list A) : len (a ++ c) = len a + len c. Proof. unfold len. rewrite app_length. lia. Qed.
Lemma len_map A B (f : A -> B) l : len (map f l) = len l. Proof. unfold len. rewrite map_length. reflexivity. Qed.
Lemma len_nonneg A (l : list A) : 0 <= len l. Proof. unfold len. lia. Qed.
Lemma len_flat A (f : A -> list Z) l n : Forall (fun x => len (f x) = n) l -> len (flat_map f l) = n * len l.
Proof. induction 1 as [|x l E _ IH]; [rewrite Z.mul_0_r; reflexivity|]. cbn [flat_map]. rewrite len_app, len_cons, E, IH. ring. Qed.
Lemma to_nat_len A (l : list A) : Z.to_nat (len l) = length l. Proof. unfold len. lia. Qed.

(** ** Words at positions *)
Definition lies (W : list Z) (pos : Z) (l : list Z) : Prop := exists pre post, W = pre ++ l ++ post /\ len pre = pos.
Lemma lies_app W pos a c : lies W pos (a ++ c) -> lies W pos a /\ lies W (pos + len a) c.
Proof.
  intros (pre & post & E & L). split.
  - exists pre, (c ++ post). rewrite <- app_assoc in E. auto.
  - exists (pre ++ a), post. rewrite len_app. rewrite <- !app_assoc in *. split; [exact E|lia].
Qed.
Lemma lies_cons W pos x l : lies W pos (x :: l) -> lies W pos [x] /\ lies W (pos + 1) l.
Proof. intros H. apply (lies_app W pos [x] l) in H. exact H. Qed.
Lemma lies_flat A W (f : A -> list Z) n l : Forall (fun x => len (f x) = n) l -> forall pos, lies W pos (flat_map f l) ->
  forall i x, nth_error l i = Some x -> lies W (pos + Z.of_nat i * n) (f x).
Proof.
  induction 1 as [|y l E _ IH]; intros pos H i x N; [destruct i; discriminate|]. cbn [flat_map] in H. apply lies_app in H as [H1 H2]. destruct i as [|i].
  - injection N as ->. replace (pos + Z.of_nat 0 * n) with pos by lia. exact H1.
  - cbn [nth_error] in N. specialize (IH _ H2 i x N). replace (pos + Z.of_nat (S i) * n) with (pos + len (f y) + Z.of_nat i * n) by lia. exact IH.
Qed.
Lemma lies_range W pos l : lies W pos l -> 0 <= pos /\ pos + len l <= len W.
Proof. intros (pre & post & -> & <-). rewrite !len_app. pose proof (len_nonneg _ pre). pose proof (len_nonneg _ post). lia. Qed.

Lemma bytes_of_length n v : length (bytes_of n v) = n.
Proof. revert v. induction n; intros v; cbn; auto. Qed.
Lemma bytes_of_ok n v : Forall (fun x => 0 <= x < 256) (bytes_of n v).
Proof. revert v. induction n; intros v; cbn [bytes_of]; constructor; auto. apply Z.mod_pos_bound. lia. Qed.
Lemma le_bytes_of n : forall v, 0 <= v < 256 ^ Z.of_nat n -> le_value (bytes_of n v) = v.
Proof.
  induction n as [|n IH]; intros v H; [cbn in *; lia|]. cbn [bytes_of le_value].
  rewrite Nat2Z.inj_succ, Z.pow_succ_r in H by lia.
  rewrite IH; [|split; [apply Z.div_pos; lia|apply Z.div_lt_upper_bound; lia]].
  pose proof (Z.div_mod v 256 ltac:(lia)). lia.
Qed.
Lemma flat_bytes_length k l : length (flat_map (bytes_of k) l) = (k * length l)%nat.
Proof. induction l as [|x l IH]; cbn [flat_map length]; [lia|]. rewrite app_length, bytes_of_length, IH. lia. Qed.
Lemma skipn_bytes k : forall i l, skipn (k * i) (flat_map (bytes_of k) l) = flat_map (bytes_of k) (skipn i l).
Proof.
  induction i as [|i IH]; intros l; [rewrite Nat.mul_0_r; reflexivity|]. destruct l as [|x l]; [cbn [flat_map skipn]; apply skipn_nil|].
  cbn [flat_map skipn]. rewrite <- IH, skipn_app, bytes_of_length. replace (k * S i - k)%nat with (k * i)%nat by lia.
  rewrite skipn_all2 by (rewrite bytes_of_length; lia). reflexivity.
Qed.
Lemma firstn_bytes k : forall i l, firstn (k * i) (flat_map (bytes_of k) l) = flat_map (bytes_of k) (firstn i l).
Proof.
  induction i as [|i IH]; intros l; [rewrite Nat.mul_0_r; reflexivity|]. destruct l as [|x l]; [cbn [flat_map firstn]; apply firstn_nil|].
  cbn [flat_map firstn]. rewrite <- IH, firstn_app, bytes_of_length. replace (k * S i - k)%nat with (k * i)%nat by lia.
  rewrite firstn_all2 by (rewrite bytes_of_length; lia). reflexivity.
Qed.

Lemma skipn_nth A (l : list A) : forall n x, nth_error l n = Some x -> skipn n l = x :: skipn (S n) l.
Proof. induction l as [|y l IH]; intros [|n] x N; try discriminate; [injection N as ->; reflexivity|]. cbn [nth_error] in N. cbn [skipn]. rewrite (IH n x N). reflexivity. Qed.

Section Words.
Variables (ws : Z) (L : list (list Z)).
Hypothesis Ws : ws = 4 \/ ws = 8.
Definition wbuf : dbuf := {| d_files := map (words_file ws) L; d_ws := ws; d_err := None |}.
Let k := Z.to_nat ws.
Let W := concat L.
Let b := wbuf.

Lemma wsp : 4 <= ws. Proof. destruct Ws; lia. Qed.
Lemma wb_bytes : all_bytes b = flat_map (bytes_of k) W.
Proof.
  unfold all_bytes, b, wbuf, W. cbn [d_files]. induction L as [|x l IH]; [reflexivity|]. cbn [map concat]. rewrite flat_map_app, <- IH. reflexivity.
Qed.
Lemma wb_total : total b = len W * ws.
Proof. unfold total. rewrite wb_bytes, flat_bytes_length. unfold len, k. lia. Qed.
Lemma wb_from pos l : lies W pos l -> bytes_from b (pos * ws) (len l * ws) = flat_map (bytes_of k) l.
Proof.
  intros (pre & post & E & P). unfold bytes_from. rewrite wb_bytes, E.
  replace (Z.to_nat (pos * ws)) with (k * length pre)%nat by (unfold len, k in *; lia).
  replace (Z.to_nat (len l * ws)) with (k * length l)%nat by (unfold len, k in *; lia).
  rewrite skipn_bytes, skipn_app, skipn_all, Nat.sub_diag. cbn [app skipn]. rewrite firstn_bytes, firstn_app, firstn_all, Nat.sub_diag. cbn [firstn]. rewrite app_nil_r. reflexivity.
Qed.
Lemma wb_wd pos x : lies W pos [x] -> is_word ws x -> wd b pos = x.
Proof.
  intros H X. unfold wd, word_at. change (d_ws b) with ws. pose proof (wb_from pos [x] H) as E. change (len [x] * ws) with (1 * ws) in E. rewrite Z.mul_1_l in E.
  rewrite E. cbn [flat_map]. rewrite app_nil_r. apply le_bytes_of. replace (256 ^ Z.of_nat k) with (2 ^ (8 * ws)); [exact X|]. unfold k. destruct Ws as [-> | ->]; reflexivity.
Qed.
Lemma wb_stretch l : Forall (is_word ws) l -> forall pos, lies W pos l -> stretch b pos (len l) = l.
Proof.
  intros F pos H. unfold stretch. rewrite to_nat_len.
  assert (G : forall i x, nth_error l i = Some x -> wd b (pos + Z.of_nat i) = x).
  { intros i x N. apply nth_error_split in N as (l1 & l2 & -> & <-). apply lies_app in H as [_ H]. apply lies_cons in H as [H _].
    change (Z.of_nat (length l1)) with (len l1). apply wb_wd; [exact H|]. apply Forall_app in F as [_ F]. inversion F; assumption. }
  clear H F. assert (Go : forall n0, map (fun i => wd b (pos + Z.of_nat i)) (seq n0 (length l - n0)) = skipn n0 l).
  2:{ specialize (Go 0%nat). rewrite Nat.sub_0_r in Go. exact Go. }
  intros n0. remember (length l - n0)%nat as d eqn:D. revert n0 D. induction d as [|d IH]; intros n0 D; [cbn; rewrite skipn_all2 by lia; reflexivity|].
  cbn [seq map]. destruct (nth_error l n0) as [x|] eqn:N; [|apply nth_error_None in N; lia]. rewrite (G _ _ N).
  rewrite IH by lia. symmetry. apply skipn_nth. exact N.
Qed.
Lemma wb_has pos x : lies W pos [x] -> has b pos.
Proof. intros H. apply lies_range in H. rewrite len_cons, len_nil in H. split; [lia|]. rewrite wb_total. change (d_ws b) with ws. pose proof wsp; nia. Qed.
Lemma wb_below pos x : lies W pos [x] -> below b pos.
Proof. intros H. apply lies_range in H. rewrite len_cons, len_nil in H. unfold below. rewrite wb_total. change (d_ws b) with ws. pose proof wsp; nia. Qed.
Lemma wb_sound : len W * ws < 2 ^ 63 -> sound_family b.
Proof.
  intros T. split; [|split; [rewrite wb_total; exact T|exact Ws]]. unfold b, wbuf. cbn [d_files]. clear. induction L; cbn [map]; constructor; auto.
Qed.
Lemma wb_aligned : aligned b.
Proof.
  unfold aligned, b, wbuf. cbn [d_files d_ws]. clear b W. induction L as [|w l IH]; cbn [map]; constructor; auto. unfold words_file. cbn [f_size].
  rewrite flat_bytes_length. exists (Z.of_nat (length w)). unfold len; pose proof wsp; nia.
Qed.
Lemma wb_bytes_ok : bytes_ok b.
Proof.
  unfold bytes_ok. rewrite wb_bytes. clear. induction W; cbn [flat_map]; [constructor|]. apply Forall_app. split; [apply bytes_of_ok|assumption].
Qed.
(** The end of the file that holds a word. *)
Lemma wb_file_end pre f post i : L = pre ++ f :: post -> len (concat pre) <= i < len (concat pre) + len f ->
  file_end b i (len (concat pre) + len f) (negb (match post with [] => true | _ => false end)).
Proof.
  intros E R. exists (map (words_file ws) pre), (words_file ws f), (map (words_file ws) post).
  assert (Q : Z.of_nat (length (concat (map f_bytes (map (words_file ws) pre)))) = len (concat pre) * ws).
  { pose proof (flat_bytes_length k (concat pre)) as X.
    assert (Y : concat (map f_bytes (map (words_file ws) pre)) = flat_map (bytes_of k) (concat pre)).
    { clear. induction pre as [|x p IH]; [reflexivity|]. cbn [map concat]. rewrite flat_map_app, IH. reflexivity. }
    rewrite Y, X. unfold len, k. lia. }
  assert (Q2 : f_size (words_file ws f) = len f * ws) by (unfold words_file; cbn [f_size]; rewrite flat_bytes_length; unfold len; lia).
  split; [unfold b, wbuf; cbn [d_files]; rewrite E, map_app; reflexivity|]. rewrite Q, Q2. change (d_ws b) with ws.
  split; [pose proof wsp; nia|]. split; [pose proof wsp; nia|]. destruct post; reflexivity.
Qed.
End Words.

(** ** A written model *)
Section Model.
Variable m : dmodel.
Hypothesis Wf : model_wf m.
Let ws := dm_ws m.
Let L := root_words m :: map (state_file_words m) (dm_files m).
Let W := concat L.
Let b := written m.
Let N := len (dm_node_ids m).
Let NS := len (dm_solids m).
Let NB := len (dm_beams m).
Let NH := len (dm_shells m).
Let NT := len (dm_thick m).
Let NP := len (dm_parts m).

Lemma Wsm : ws = 4 \/ ws = 8. Proof. apply Wf. Qed.
Lemma b_wbuf : b = wbuf ws L. Proof. reflexivity. Qed.
Lemma counts : 0 <= N /\ 0 <= NS /\ 0 <= NB /\ 0 <= NH /\ 0 <= NT /\ 1 <= NP.
Proof.
  unfold N, NS, NB, NH, NT, NP. pose proof (proj1 (mw_parts m Wf)) as P.
  assert (1 <= len (dm_parts m)) by (destruct (dm_parts m) as [|x l]; [congruence|]; rewrite len_cons; pose proof (len_nonneg _ l); lia).
  repeat split; try apply len_nonneg; assumption.
Qed.

Lemma con_out_len n c : con_wf ws n c -> len (con_out c) = n + 1.
Proof. intros (E & _). unfold con_out. rewrite len_app, len_map, E. reflexivity. Qed.
Lemma beam_con_out_len c : beam_con_wf ws c -> len (beam_con_out c) = 6.
Proof. intros (E & _ & _ & E2 & _). unfold beam_con_out. rewrite !len_app, len_map, E, E2. reflexivity. Qed.
Lemma cons_len n l : Forall (con_wf ws n) l -> Forall (fun c => len (con_out c) = n + 1) l.
Proof. apply Forall_impl. intros c. apply con_out_len. Qed.
Lemma beam_cons_len l : Forall (beam_con_wf ws) l -> Forall (fun c => len (beam_con_out c) = 6) l.
Proof. apply Forall_impl. intros c. apply beam_con_out_len. Qed.

Lemma control_len : len (control m) = 64.
Proof. unfold control. destruct (dm_mats m) as [[[m8 m2] m4] mt]. rewrite len_app, (mw_title m Wf). reflexivity. Qed.
Lemma geometry_len : len (geometry m) = 3 * N + 9 * NS + 9 * NT + 6 * NB + 5 * NH.
Proof.
  unfold geometry. rewrite !len_app, (mw_coords m Wf).
  rewrite (len_flat _ con_out (dm_solids m) 9) by (apply (cons_len 8); apply Wf).
  rewrite (len_flat _ con_out (dm_thick m) 9) by (apply (cons_len 8); apply Wf).
  rewrite (len_flat _ beam_con_out (dm_beams m) 6) by (apply beam_cons_len; apply Wf).
  rewrite (len_flat _ con_out (dm_shells m) 5) by (apply (cons_len 4); apply Wf). unfold N, NS, NT, NB, NH. lia.
Qed.
Lemma all_ids_len : len (all_ids m) = N + NS + NB + NH + NT.
Proof.
  unfold all_ids. rewrite !len_app, (proj2 (mw_solids m Wf)), (proj2 (mw_beams m Wf)), (proj2 (mw_shells m Wf)), (proj2 (mw_thick m Wf)). unfold N, NS, NB, NH, NT. lia.
Qed.
Lemma id_size : id_section_size m = 16 + N + NS + NB + NH + NT + 3 * NP.
Proof. unfold id_section_size. rewrite all_ids_len. fold NP. lia. Qed.
Lemma ids_len : len (ids m) = id_section_size m.
Proof. rewrite id_size. unfold ids. rewrite !len_app, all_ids_len, !len_map. fold NP. change (len _) with 16 at 1. lia. Qed.
Lemma title_len p : In p (dm_parts m) -> len (snd p) = 72 / ws.
Proof.
  intros I. pose proof (proj2 (mw_parts m Wf)) as F. rewrite Forall_forall in F. specialize (F p I). cbv beta in F. fold ws in F. destruct Wsm as [-> | ->]; cbn; lia.
Qed.
Lemma titles_len : len (titles_block m) = 2 + NP * (1 + 72 / ws).
Proof.
  unfold titles_block. rewrite len_app. rewrite (len_flat _ _ _ (1 + 72 / ws)).
  - fold NP. change (len [90001; NP]) with 2. lia.
  - apply Forall_forall. intros p I. rewrite len_cons, (title_len p I). reflexivity.
Qed.
Lemma root_len : len (root_words m) = 64 + len (geometry m) + len (ids m) + 1 + len (titles_block m) + 1 + len (dm_pad m).
Proof. unfold root_words. rewrite !len_app, control_len. change (len [eof_word (dm_ws m)]) with 1. lia. Qed.
Lemma small_counts : N < 2 ^ 31 /\ NS < 2 ^ 31 /\ NB < 2 ^ 31 /\ NH < 2 ^ 31 /\ NT < 2 ^ 31 /\ NP < 2 ^ 31 /\ id_section_size m < 2 ^ 31.
Proof.
  pose proof counts as C. pose proof (proj1 (mw_small m Wf)) as T. rewrite root_len, geometry_len, ids_len, titles_len in T. pose proof id_size as I.
  pose proof (len_nonneg _ (dm_pad m)). assert (0 <= 72 / ws) by (destruct Wsm as [-> | ->]; cbn; lia). assert (0 <= NP * (72 / ws)) by nia.
  rewrite I in *. lia.
Qed.
(** Numbers below 2^32 are words. *)
Lemma word32 v : 0 <= v < 2 ^ 32 -> is_word ws v.
Proof. unfold is_word. destruct Wsm as [-> | ->]; lia. Qed.

Lemma W_root : W = root_words m ++ concat (map (state_file_words m) (dm_files m)). Proof. reflexivity. Qed.
Lemma lies_root pos l : lies (root_words m) pos l -> lies W pos l.
Proof. intros (pre & post & E & P). exists pre, (post ++ concat (map (state_file_words m) (dm_files m))). rewrite W_root, E, <- !app_assoc. auto. Qed.
Lemma root_parts : lies W 0 (control m) /\ lies W 64 (geometry m) /\ lies W (64 + len (geometry m)) (ids m) /\
  lies W (64 + len (geometry m) + id_section_size m) [eof_word ws] /\
  lies W (64 + len (geometry m) + id_section_size m + 1) (titles_block m) /\
  lies W (64 + len (geometry m) + id_section_size m + 1 + len (titles_block m)) [eof_word ws].
Proof.
  assert (H : lies W 0 (root_words m)) by (exists [], (concat (map (state_file_words m) (dm_files m))); split; reflexivity).
  unfold root_words in H. repeat (apply lies_app in H as [? H]). rewrite control_len in *. rewrite ids_len in *. rewrite ?Z.add_0_l in *.
  change (len [eof_word (dm_ws m)]) with 1 in *. auto 10.
Qed.

(** Every word of the root file is a word. *)
Lemma in_words : Forall (is_word ws) (dm_title m) /\ is_word ws (dm_run_time m) /\ Forall (is_word ws) (dm_coords m) /\ Forall (is_word ws) (all_ids m) /\
  Forall (is_word ws) (flat_map (fun p => fst p :: snd p) (dm_parts m)).
Proof.
  pose proof (mw_words m Wf) as F. fold ws in F. apply Forall_app in F as [F1 F]. apply Forall_app in F as [F2 F]. apply Forall_app in F as [F3 F].
  apply Forall_app in F as [F4 F]. apply Forall_app in F as [F5 _]. split; [exact F1|]. split; [inversion F2; assumption|]. auto.
Qed.

(** ** The control words *)
Lemma sizes : 0 <= strain_words m 6 <= 6 /\ 0 <= strain_words m 12 <= 12 /\ 0 <= dm_solid_hist m < 2 ^ 31 /\ 0 <= dm_ip_hist m <= 255 /\ 3 <= dm_ips m <= 255 /\ 0 <= dm_beam_ips m <= 255 /\ 0 <= dm_nglob m < 2 ^ 31.
Proof.
  pose proof (mw_hist m Wf) as (A1 & A2 & A3 & A4). pose proof (mw_small m Wf) as (_ & B1 & _ & B2 & _). unfold small in *. unfold strain_words. destruct (dm_strain m); lia.
Qed.
Lemma nvs : 7 <= nv3d m /\ 6 <= nv1d m < 2 ^ 31 /\ 33 <= nv2d m < 2 ^ 31 /\ 21 <= nv3dt m < 2 ^ 31.
Proof. pose proof sizes. unfold nv3d, nv1d, nv2d, nv3dt. nia. Qed.
Lemma mats : forall m8 m2 m4 mt, dm_mats m = (m8, m2, m4, mt) -> 0 <= m8 < 2 ^ 31 /\ 0 <= m2 < 2 ^ 31 /\ 0 <= m4 < 2 ^ 31 /\ 0 <= mt < 2 ^ 31 /\ 6 + 7 * (m8 + m2 + m4 + mt) <= dm_nglob m.
Proof. intros m8 m2 m4 mt E. pose proof (mw_mats m Wf) as M. rewrite E in M. pose proof sizes. lia. Qed.
Lemma bit_range x : 0 <= bit x <= 1. Proof. destruct x; cbn; lia. Qed.
Lemma control_words : Forall (is_word ws) (control m).
Proof.
  pose proof counts as C. pose proof small_counts as S. pose proof sizes as Z0. pose proof nvs as V. pose proof in_words as (I1 & I2 & _).
  unfold control. destruct (dm_mats m) as [[[m8 m2] m4] mt] eqn:E. pose proof (mats _ _ _ _ E) as M. pose proof id_size as Is.
  assert (Sw : 0 <= strain_words m 10000 <= 10000) by (unfold strain_words; destruct (dm_strain m); lia).
  assert (Nv : nv3d m < 2 ^ 32) by (unfold nv3d; lia).
  pose proof (bit_range (dm_has m Coordinates)). pose proof (bit_range (dm_has m Velocity)). pose proof (bit_range (dm_has m Acceleration)).
  apply Forall_app. split; [exact I1|]. fold N NS NB NH NT NP.
  repeat (constructor; [first [exact I2|apply word32; lia]|]). constructor.
Qed.
Lemma control_at i x : nth_error (control m) i = Some x -> wd b (Z.of_nat i) = x.
Proof.
  intros E. assert (X : is_word ws x) by (pose proof control_words as F; rewrite Forall_forall in F; apply F; apply nth_error_In in E; exact E).
  rewrite b_wbuf. apply (wb_wd ws L Wsm); [|exact X]. destruct root_parts as (H & _). apply nth_error_split in E as (l1 & l2 & E & <-). rewrite E in H.
  apply lies_app in H as [_ H]. apply lies_cons in H as [H _]. exact H.
Qed.
Lemma control_nth i : (10 <= i < 64)%nat -> wd b (Z.of_nat i) = nth (i - 10) (skipn 10 (control m)) 0.
Proof.
  intros R. apply control_at. pose proof control_len as Cl. unfold len in Cl.
  rewrite (nth_error_nth' (control m) 0) by lia. f_equal. rewrite <- (firstn_skipn 10 (control m)) at 1. rewrite app_nth2; rewrite firstn_length; [f_equal; lia|lia].
Qed.
Lemma control_tail : skipn 10 (control m) =
  let '(m8, m2, m4, mt) := dm_mats m in
  [dm_run_time m; 1; 0; 0; 0; 4; N; 6; dm_nglob m; 0; bit (dm_has m Coordinates); bit (dm_has m Velocity); bit (dm_has m Acceleration);
   NS; m8; 0; 0; nv3d m; NB; m2; nv1d m; NH; m4; nv2d m; dm_solid_hist m + strain_words m 6; dm_ip_hist m; dm_ips m; 0;
   0; id_section_size m; NT; mt; nv3dt m; 1000; 1000; 1000; 1000; 0; 0; 0; 0; NP; 0; 0; 0; 0; strain_words m 10000; 0; 0; 0; 0; 0; 0; 0].
Proof.
  unfold control. destruct (dm_mats m) as [[[m8 m2] m4] mt]. pose proof (mw_title m Wf) as T. unfold len in T.
  rewrite skipn_app, skipn_all2 by lia. replace (10 - length (dm_title m))%nat with 0%nat by lia. reflexivity.
Qed.
(** The value of every control word. *)
Definition cv (f : field) : Z :=
  let '(m8, m2, m4, mt) := dm_mats m in
  match f with
  | NDIM => 4 | NUMNP => N | ICODE => 6 | NGLBV => dm_nglob m | IU => bit (dm_has m Coordinates) | IV => bit (dm_has m Velocity) | IA => bit (dm_has m Acceleration)
  | NEL8 => NS | NUMMAT8 => m8 | NV3D => nv3d m | NEL2 => NB | NUMMAT2 => m2 | NV1D => nv1d m | NEL4 => NH | NUMMAT4 => m4 | NV2D => nv2d m
  | NEIPH => dm_solid_hist m + strain_words m 6 | NEIPS => dm_ip_hist m | MAXINT => dm_ips m | NARBS => id_section_size m | NELT => NT | NUMMATT => mt | NV3DT => nv3dt m
  | IOSHL0 | IOSHL1 | IOSHL2 | IOSHL3 => 1000 | NMMAT => NP | IDTDT => strain_words m 10000
  | _ => 0
  end.
Lemma signed_small v : 0 <= v < 2 ^ 31 -> signed ws v = v.
Proof.
  intros H. unfold signed, s32, s64. destruct Wsm as [-> | ->]; cbn [Z.eqb Pos.eqb].
  - rewrite Z.mod_small by lia. cbv zeta. destruct (Z.ltb_spec v (2 ^ 31)); lia.
  - rewrite Z.mod_small by lia. cbv zeta. destruct (Z.ltb_spec v (2 ^ 63)); lia.
Qed.
Lemma cval_ok f : cval b f = cv f.
Proof.
  pose proof control_tail as T. unfold cv. destruct (dm_mats m) as [[[m8 m2] m4] mt] eqn:E.
  assert (G : forall i x, (10 <= i < 64)%nat -> nth (i - 10) (skipn 10 (control m)) 0 = x -> wd b (Z.of_nat i) = x) by (intros i x R <-; apply control_nth; exact R).
  assert (E57 : wd b 57 = 0) by (apply (G 57%nat); [lia|rewrite T; reflexivity]).
  unfold cval. destruct f; cbn [control_pos extra_pos]; try rewrite E57; try reflexivity;
    try (match goal with |- wd b ?z = _ => apply (G (Z.to_nat z)); [cbn; lia|rewrite T; reflexivity] end).
  - change (d_ws b) with ws. change 23 with (Z.of_nat 23). rewrite (G 23%nat NS); [|lia|rewrite T; reflexivity]. apply signed_small. pose proof counts. pose proof small_counts. lia.
  - change (d_ws b) with ws. change 36 with (Z.of_nat 36). rewrite (G 36%nat (dm_ips m)); [|lia|rewrite T; reflexivity]. apply signed_small. pose proof sizes. lia.
Qed.

(** ** The positions of the tables *)
Ltac cvs := rewrite ?cval_ok; unfold cv; destruct (dm_mats m) as [[[? ?] ?] ?].
Lemma cv_nodes : cval b NUMNP = N. Proof. cvs; reflexivity. Qed.
Lemma cv_el8 : cval b NEL8 = NS. Proof. cvs; reflexivity. Qed.
Lemma cv_el2 : cval b NEL2 = NB. Proof. cvs; reflexivity. Qed.
Lemma cv_el4 : cval b NEL4 = NH. Proof. cvs; reflexivity. Qed.
Lemma cv_elt : cval b NELT = NT. Proof. cvs; reflexivity. Qed.
Lemma cv_nmmat : cval b NMMAT = NP. Proof. cvs; reflexivity. Qed.
Lemma cv_narbs : cval b NARBS = id_section_size m. Proof. cvs; reflexivity. Qed.
Lemma cv_0 f : In f [EXTRA; QUADR; CUBIC; NEL48; NEL20; NEL27; NEL21P; NEL15T; NEL20T; NEL40P; NEL64; NADAPT; IALEMAT; NMSPH; NPEFG; NUMDS; NUMST; IT; NEIPB; NT3D; NCFDV1] -> cval b f = 0.
Proof. intros I. rewrite cval_ok. unfold cv. destruct (dm_mats m) as [[[? ?] ?] ?]. cbn [In] in I. repeat (destruct I as [<- |I]; [reflexivity|]). destruct I. Qed.
Ltac cz := match goal with |- context [cval b ?f] => rewrite (cv_0 f) by (cbn [In]; tauto) end.
Lemma p_control : control_end b = 64.
Proof. unfold control_end, higher_order. repeat cz. reflexivity. Qed.
Lemma p_el8 : g_el8 b = 64 + 3 * N. Proof. unfold g_el8. rewrite p_control, cv_nodes. reflexivity. Qed.
Lemma p_elt : g_elt b = 64 + 3 * N + 9 * NS. Proof. unfold g_elt. rewrite p_el8, cv_el8. reflexivity. Qed.
Lemma p_el2 : g_el2 b = 64 + 3 * N + 9 * NS + 9 * NT. Proof. unfold g_el2. rewrite p_elt, cv_elt. reflexivity. Qed.
Lemma p_el4 : g_el4 b = 64 + 3 * N + 9 * NS + 9 * NT + 6 * NB. Proof. unfold g_el4. rewrite p_el2, cv_el2. reflexivity. Qed.
Lemma p_geometry : geometry_end b = 64 + len (geometry m). Proof. unfold geometry_end. rewrite p_el4, cv_el4, geometry_len. lia. Qed.

(** The words of the id section. *)
Lemma id_head : Forall (is_word ws) (firstn 16 (ids m)).
Proof.
  pose proof counts. pose proof small_counts. unfold ids. cbn [firstn app]. fold ws N NS NB NH NT NP.
  constructor; [unfold is_word; destruct Wsm as [-> | ->]; lia|]. repeat (constructor; [apply word32; lia|]). constructor.
Qed.
Lemma id_word i : (i < 16)%nat -> wd b (geometry_end b + Z.of_nat i) = nth i (ids m) 0.
Proof.
  intros R. rewrite p_geometry. destruct root_parts as (_ & _ & H & _). pose proof id_head as F.
  assert (Hn : nth_error (ids m) i = Some (nth i (ids m) 0)) by (apply nth_error_nth'; unfold ids; cbn [app length]; lia).
  assert (X : is_word ws (nth i (ids m) 0)).
  { rewrite Forall_forall in F. apply F. unfold ids in *. cbn [app firstn]. do 16 (destruct i as [|i]; [cbn; tauto|]). lia. }
  apply nth_error_split in Hn as (l1 & l2 & E & <-). rewrite E in H at 1. rewrite b_wbuf. apply (wb_wd ws L Wsm); [|exact X].
  apply lies_app in H as [_ H]. apply lies_cons in H as [H _]. exact H.
Qed.
Lemma id_flag : part_ids_present b = true.
Proof.
  unfold part_ids_present. pose proof (id_word 0 ltac:(lia)) as E. rewrite Z.add_0_r in E. rewrite E. change (nth 0 (ids m) 0) with (2 ^ (8 * ws) - 1). change (d_ws b) with ws.
  destruct Wsm as [-> | ->]; reflexivity.
Qed.
Lemma p_has_ids : has_ids b = true.
Proof. unfold has_ids. rewrite cv_narbs, id_size. pose proof counts. destruct (Z.eqb_spec (16 + N + NS + NB + NH + NT + 3 * NP) 0); [lia|reflexivity]. Qed.
Lemma p_ids : ids_start b = 64 + len (geometry m) + 16. Proof. unfold ids_start. rewrite id_flag, p_geometry. reflexivity. Qed.
Lemma p_nmmat : ids_nmmat b = NP. Proof. unfold ids_nmmat. rewrite id_flag. apply (id_word 15). lia. Qed.
Lemma p_numrbs : numrbs b = 0. Proof. unfold numrbs. rewrite id_flag, p_has_ids. apply (id_word 14). lia. Qed.
Lemma p_iel8 : i_el8 b = 64 + len (geometry m) + 16 + N. Proof. unfold i_el8. rewrite p_ids, cv_nodes. reflexivity. Qed.
Lemma p_iel2 : i_el2 b = 64 + len (geometry m) + 16 + N + NS. Proof. unfold i_el2. rewrite p_iel8, cv_el8. reflexivity. Qed.
Lemma p_iel4 : i_el4 b = 64 + len (geometry m) + 16 + N + NS + NB. Proof. unfold i_el4. rewrite p_iel2, cv_el2. reflexivity. Qed.
Lemma p_ielt : i_elt b = 64 + len (geometry m) + 16 + N + NS + NB + NH. Proof. unfold i_elt. rewrite p_iel4, cv_el4. reflexivity. Qed.
Lemma p_iparts : i_parts b = 64 + len (geometry m) + 16 + N + NS + NB + NH + NT. Proof. unfold i_parts. rewrite p_ielt, cv_elt. reflexivity. Qed.
Lemma p_idend : ids_end b = 64 + len (geometry m) + id_section_size m.
Proof. unfold ids_end. rewrite p_has_ids, p_iparts, p_nmmat, id_size. lia. Qed.
Lemma p_marker : marker_pos b = 64 + len (geometry m) + id_section_size m.
Proof. unfold marker_pos, extra_nodes, if_pos. rewrite p_idend. repeat cz. cbn [Z.ltb Z.compare]. lia. Qed.

(** End markers. *)
Lemma eof_is_word : is_word ws (eof_word ws). Proof. unfold is_word, eof_word. destruct Wsm as [-> | ->]; split; vm_compute; congruence. Qed.
Lemma eof_at pos : lies W pos [eof_word ws] -> has b pos /\ is_eof (d_ws b) (wd b pos) = true.
Proof.
  intros H. split; [rewrite b_wbuf; apply (wb_has ws L Wsm) with (1 := H)|]. rewrite b_wbuf, (wb_wd ws L Wsm pos _ H eof_is_word). change (d_ws (wbuf ws L)) with ws.
  unfold eof_word. destruct Wsm as [-> | ->]; reflexivity.
Qed.
Lemma not_eof v : is_word ws v -> v <> eof_word ws -> is_eof (d_ws b) v = false.
Proof.
  intros _ Ne. change (d_ws b) with ws. unfold is_eof, eof_word in *. destruct Wsm as [-> | ->]; cbn [Z.eqb Pos.eqb] in *; apply Z.eqb_neq; exact Ne.
Qed.

Lemma total_ok : len W * ws < 2 ^ 63.
Proof. pose proof (mw_small m Wf) as (_ & _ & _ & _ & T). change (total (wbuf ws L) < 2 ^ 63) in T. rewrite (wb_total ws L Wsm) in T. exact T. Qed.
Lemma cv_ips : cval b MAXINT = dm_ips m. Proof. cvs; reflexivity. Qed.
Lemma cv_neips : cval b NEIPS = dm_ip_hist m. Proof. cvs; reflexivity. Qed.
Lemma cv_neiph : cval b NEIPH = dm_solid_hist m + strain_words m 6. Proof. cvs; reflexivity. Qed.
Lemma cv_idtdt : cval b IDTDT = strain_words m 10000. Proof. cvs; reflexivity. Qed.
Lemma cv_nv2d : cval b NV2D = nv2d m. Proof. cvs; reflexivity. Qed.
Lemma cv_nv3d : cval b NV3D = nv3d m. Proof. cvs; reflexivity. Qed.
Lemma cv_nv1d : cval b NV1D = nv1d m. Proof. cvs; reflexivity. Qed.
Lemma cv_nv3dt : cval b NV3DT = nv3dt m. Proof. cvs; reflexivity. Qed.
Lemma cv_nglbv : cval b NGLBV = dm_nglob m. Proof. cvs; reflexivity. Qed.
Lemma cv_ioshl f : In f [IOSHL0; IOSHL1; IOSHL2; IOSHL3] -> cval b f = 1000.
Proof. intros I. rewrite cval_ok. unfold cv. destruct (dm_mats m) as [[[? ?] ?] ?]. cbn [In] in I. repeat (destruct I as [<- |I]; [reflexivity|]). destruct I. Qed.
Lemma p_maxint : maxint_of (cval b MAXINT) = dm_ips m.
Proof. rewrite cv_ips. pose proof sizes. unfold maxint_of. destruct (Z.ltb_spec (dm_ips m) (-10000)); lia. Qed.
Lemma p_mdlopt : mdlopt_of (cval b MAXINT) = 0.
Proof. rewrite cv_ips. pose proof sizes. unfold mdlopt_of. destruct (Z.ltb_spec (dm_ips m) (-10000)); [lia|]. destruct (Z.ltb_spec (dm_ips m) 0); [lia|reflexivity]. Qed.
Lemma p_supported : supported b.
Proof.
  destruct root_parts as (_ & _ & _ & H4 & _). rewrite <- p_marker in H4. pose proof sizes as Sz.
  constructor.
  - apply (wb_sound ws L Wsm total_ok).
  - apply (wb_aligned ws L Wsm).
  - reflexivity.
  - apply (wb_bytes_ok ws L).
  - left. change 11 with (Z.of_nat 11). rewrite (control_nth 11) by lia. rewrite control_tail. destruct (dm_mats m) as [[[? ?] ?] ?]. reflexivity.
  - cvs; reflexivity.
  - right. cvs; reflexivity.
  - intros n R. rewrite cv_idtdt. unfold strain_words. assert (C : n = 0 \/ n = 1 \/ n = 2 \/ n = 3) by lia.
    destruct (dm_strain m); destruct C as [-> |[-> |[-> | ->]]]; cbn; discriminate.
  - rewrite cv_neips. lia.
  - rewrite p_maxint. lia.
  - intros f I. apply cv_0. cbn [In] in *. tauto.
  - rewrite cv_el8. apply counts.
  - left. apply cv_0. cbn [In]; tauto.
  - cz. lia.
  - intros _ E. rewrite cv_nv2d in E. pose proof nvs. lia.
  - cz. lia.
  - intros _. pose proof p_nmmat. pose proof (id_word 5 ltac:(lia)) as I5. pose proof (id_word 6 ltac:(lia)) as I6. pose proof (id_word 7 ltac:(lia)) as I7.
    pose proof (id_word 8 ltac:(lia)) as I8. pose proof (id_word 9 ltac:(lia)) as I9. cbn [Z.of_nat Pos.of_succ_nat Pos.succ] in *.
    rewrite I5, I6, I7, I8, I9, cv_nodes, cv_el8, cv_el2, cv_el4, cv_elt, cv_narbs, p_idend, p_geometry. repeat (split; [reflexivity|]). lia.
  - apply eof_at. exact H4.
Qed.

(** ** The states *)
Lemma flag_bit x : flag (bit x) = bit x. Proof. destruct x; reflexivity. Qed.
Lemma cv_iu : cval b IU = bit (dm_has m Coordinates). Proof. cvs; reflexivity. Qed.
Lemma cv_iv : cval b IV = bit (dm_has m Velocity). Proof. cvs; reflexivity. Qed.
Lemma cv_ia : cval b IA = bit (dm_has m Acceleration). Proof. cvs; reflexivity. Qed.
Definition vlen (v : vector) : Z := if dm_has m v then 3 * N else 0.
Lemma vlen_range v : 0 <= vlen v <= 3 * N. Proof. unfold vlen. pose proof counts. destruct (dm_has m v); lia. Qed.
Lemma vlen_flag v : 3 * N * flag (bit (dm_has m v)) = vlen v.
Proof. unfold vlen. destruct (dm_has m v); cbn [bit flag Z.eqb]; lia. Qed.
Definition o_vel : Z := 1 + dm_nglob m + vlen Coordinates.
Definition o_acc : Z := o_vel + vlen Velocity.
Definition o_solid : Z := o_acc + vlen Acceleration.
Definition o_beam : Z := o_solid + nv3d m * NS.
Definition o_shell : Z := o_beam + nv1d m * NB.
Definition o_thick : Z := o_shell + nv2d m * NH.
Definition SS : Z := o_thick + nv3dt m * NT.
Lemma p_coords : s_coords b = 1 + dm_nglob m. Proof. unfold s_coords. rewrite cv_nglbv. reflexivity. Qed.
Lemma p_vel : s_vel b = o_vel. Proof. unfold s_vel, o_vel. rewrite p_coords, cv_nodes, cv_iu, vlen_flag. reflexivity. Qed.
Lemma p_acc : s_acc b = o_acc. Proof. unfold s_acc, o_acc. rewrite p_vel, cv_nodes, cv_iv, vlen_flag. reflexivity. Qed.
Lemma p_solid : s_solid b = o_solid. Proof. unfold s_solid, s_therm, o_solid. rewrite p_acc, cv_nodes, cv_ia, vlen_flag. cz. lia. Qed.
Lemma p_beam : s_beam b = o_beam. Proof. unfold s_beam, o_beam. rewrite p_solid, cv_nv3d, cv_el8. reflexivity. Qed.
Lemma p_shell : s_shell b = o_shell. Proof. unfold s_shell, o_shell. rewrite p_beam, cv_nv1d, cv_el2. reflexivity. Qed.
Lemma p_tshell : s_tshell b = o_thick. Proof. unfold s_tshell, o_thick. rewrite p_shell, cv_nv2d, cv_el4. reflexivity. Qed.
Lemma p_size : state_size b = SS.
Proof. unfold state_size, s_del, deletion, SS. rewrite p_tshell, cv_nv3dt, cv_elt, p_mdlopt. lia. Qed.
Lemma SS_range : 1 <= SS < 2 ^ 31.
Proof.
  pose proof (mw_small m Wf) as (_ & _ & T & _). pose proof (vlen_range Coordinates). pose proof (vlen_range Velocity). pose proof (vlen_range Acceleration).
  pose proof counts. pose proof nvs. pose proof sizes. unfold SS, o_thick, o_shell, o_beam, o_solid, o_acc, o_vel. fold N NS NB NH NT in T. nia.
Qed.
Lemma p_regular : regular_states b.
Proof.
  constructor.
  - intros f I. cbn [In] in I. destruct I as [<- |[<- |[<- |[]]]]; rewrite ?cv_iu, ?cv_iv, ?cv_ia; unfold bit; match goal with |- context [if ?x then _ else _] => destruct x end; auto.
  - unfold global_minimum. rewrite p_numrbs, !cval_ok. unfold cv. destruct (dm_mats m) as [[[m8 m2] m4] mt] eqn:E. pose proof (mats _ _ _ _ E). lia.
  - rewrite p_size. pose proof SS_range. lia.
Qed.
Definition strain_flag : Z := bit (dm_strain m).
Lemma p_per_ip : per_ip b = dm_ips m * (7 + dm_ip_hist m).
Proof. unfold per_ip. rewrite p_maxint, !cv_ioshl by (cbn [In]; tauto). rewrite cv_neips. change (ioshl 1000) with 1. lia. Qed.
Lemma p_istrn : istrn_of b = Some strain_flag.
Proof.
  unfold istrn_of, strain_flag. rewrite cv_idtdt, cv_nv2d, p_per_ip, !cv_ioshl by (cbn [In]; tauto). change (ioshl 1000) with 1. pose proof nvs as V.
  unfold strain_words. destruct (dm_strain m) eqn:E; [reflexivity|]. change (100 <=? 0) with false. cbv iota. destruct (Z.ltb_spec 0 (nv2d m)); [|lia].
  unfold nv2d, strain_words. rewrite E. replace (_ - _) with 0 by ring. reflexivity.
Qed.

(** The length of what is written for an element. *)
Lemma strain_out_len l n : (dm_strain m = true -> len l = n) -> len (strain_out m l) = strain_words m n.
Proof. unfold strain_out, strain_words. destruct (dm_strain m); [auto|reflexivity]. Qed.
Lemma strain_len l : strain_wf m l -> dm_strain m = true -> len l = 6.
Proof. unfold strain_wf. intros H E. rewrite E in H. exact H. Qed.
Lemma point_len p : point_wf m p -> len (point_out p) = 7 + dm_ip_hist m.
Proof. intros (A & B). unfold point_out. rewrite !len_app, A, B. change (len [v_plastic p]) with 1. lia. Qed.
Lemma points_len l : Forall (point_wf m) l -> Forall (fun p => len (point_out p) = 7 + dm_ip_hist m) l.
Proof. apply Forall_impl. intros p. apply point_len. Qed.
Definition solid_wf (x : solid * list Z) : Prop := len (so_sigma (fst x)) = 6 /\ strain_wf m (so_epsilon (fst x)) /\ len (snd x) = dm_solid_hist m.
Definition beam_wf (v : beam_view) : Prop :=
  len (y_resultants v) = 6 /\ len (y_ips v) = dm_beam_ips m /\ Forall (fun p => len (fst p) = 5 /\ snd p = []) (y_ips v) /\ y_avg v = [] /\ y_min v = [] /\ y_max v = [].
Definition shell_wf (v : shell_view) : Prop :=
  len (w_ips v) = dm_ips m /\ Forall (point_wf m) (w_ips v) /\ strain_wf m (w_inner v) /\ strain_wf m (w_outer v) /\
  len (w_bending v) = 3 /\ len (w_shear v) = 2 /\ len (w_normal v) = 3 /\ len (w_vars v) = 2.
Definition thick_wf (v : thick_view) : Prop := len (x_ips v) = dm_ips m /\ Forall (point_wf m) (x_ips v) /\ strain_wf m (x_inner v) /\ strain_wf m (x_outer v).
Lemma solid_len x : solid_wf x -> len (solid_out m x) = nv3d m.
Proof.
  intros (A & B & C). unfold solid_out, nv3d. rewrite !len_app, A, C, (strain_out_len _ 6) by (apply strain_len; exact B). change (len [so_plastic (fst x)]) with 1. lia.
Qed.
Lemma beam_len v : beam_wf v -> len (beam_out v) = nv1d m.
Proof.
  intros (A & B & C & _). unfold beam_out, nv1d. rewrite len_app, A, (len_flat _ fst _ 5); [rewrite B; reflexivity|]. revert C. apply Forall_impl. tauto.
Qed.
Lemma shell_len v : shell_wf v -> len (shell_out m v) = nv2d m.
Proof.
  intros (A & B & C & D & E1 & E2 & E3 & E4). unfold shell_out, nv2d. rewrite !len_app, (len_flat _ _ _ _ (points_len _ B)), A, E1, E2, E3, E4.
  rewrite (strain_out_len _ 12) by (intros T; rewrite len_app, (strain_len _ C T), (strain_len _ D T); reflexivity).
  change (len [w_thickness v]) with 1. change (len [w_energy v]) with 1. ring.
Qed.
Lemma thick_len v : thick_wf v -> len (thick_out m v) = nv3dt m.
Proof.
  intros (A & B & C & D). unfold thick_out, nv3dt. rewrite <- (firstn_skipn 3 (x_ips v)) in B. apply Forall_app in B as [B1 B2].
  rewrite !len_app, (len_flat _ _ _ _ (points_len _ B1)), (len_flat _ _ _ _ (points_len _ B2)).
  rewrite (strain_out_len _ 12) by (intros T; rewrite len_app, (strain_len _ C T), (strain_len _ D T); reflexivity).
  assert (Q : len (firstn 3 (x_ips v)) + len (skipn 3 (x_ips v)) = dm_ips m) by (rewrite <- len_app, firstn_skipn; exact A).
  rewrite <- Q. ring.
Qed.
Lemma state_len s : state_wf m s -> len (state_out m s) = SS.
Proof.
  intros [W1 W2 W3 W4 [W5 F5] [W6 F6] [W7 F7] [W8 F8]]. unfold state_out, vectors_out. rewrite !len_app, W3, !W4. fold N. fold (vlen Coordinates) (vlen Velocity) (vlen Acceleration).
  rewrite (len_flat _ _ _ (nv3d m)), W5 by (revert F5; apply Forall_impl; exact solid_len).
  rewrite (len_flat _ _ _ (nv1d m)), W6 by (revert F6; apply Forall_impl; exact beam_len).
  rewrite (len_flat _ _ _ (nv2d m)), W7 by (revert F7; apply Forall_impl; exact shell_len).
  rewrite (len_flat _ _ _ (nv3dt m)), W8 by (revert F8; apply Forall_impl; exact thick_len).
  fold NS NB NH NT. unfold SS, o_thick, o_shell, o_beam, o_solid, o_acc, o_vel. change (len [ds_time s]) with 1. ring.
Qed.

(** The states begin at: *)
Fixpoint file_states (p : Z) (l : list dstate) : list Z := match l with [] => [] | _ :: l => p :: file_states (p + SS) l end.
Fixpoint positions (p : Z) (l : list (list dstate * list Z)) : list Z :=
  match l with [] => [] | f :: r => file_states p (fst f) ++ positions (p + len (state_file_words m f)) r end.
Lemma file_run st : Forall (state_wf m) st -> forall p tl l q more, lies W p (flat_map (state_out m) st ++ [eof_word ws] ++ tl) ->
  file_end b (p + SS * len st) q more -> (if more then states_from b q l else l = []) -> states_from b p (file_states p st ++ l).
Proof.
  induction 1 as [|s st Ws _ IH]; intros p tl l q more H E T.
  - cbn [flat_map app file_states] in *. apply lies_cons in H as [H _]. destruct (eof_at _ H) as (H1 & H2). replace (p + SS * len []) with p in E by (rewrite len_nil; ring).
    destruct more; [apply st_next with q; assumption|]. rewrite T. apply st_end with q; assumption.
  - cbn [flat_map] in H. rewrite <- app_assoc in H. apply lies_app in H as [H1 H2]. pose proof (sw_words m s Ws) as Fw. fold ws in Fw.
    rewrite (state_len s Ws) in H2. pose proof (sw_time m s Ws) as Nt. fold ws in Nt. unfold state_out in H1, Fw. cbn [app] in H1, Fw. apply lies_cons in H1 as [H1 _].
    assert (Wt : is_word ws (ds_time s)) by (inversion Fw; assumption).
    cbn [file_states app]. apply st_state.
    + rewrite b_wbuf. apply (wb_has ws L Wsm) with (1 := H1).
    + rewrite b_wbuf at 2. rewrite (wb_wd ws L Wsm p _ H1 Wt). apply not_eof; assumption.
    + rewrite p_size. assert (X : exists x, lies W (p + SS) [x]).
      { destruct st as [|s2 st]; [cbn [flat_map app] in H2; apply lies_cons in H2 as [H2 _]; eauto|]. cbn [flat_map] in H2. unfold state_out in H2 at 1. cbn [app] in H2. apply lies_cons in H2 as [H2 _]. eauto. }
      destruct X as (x & X). rewrite b_wbuf. apply (wb_below ws L Wsm) with (1 := X).
    + rewrite p_size. apply IH with tl q more; [exact H2| |exact T]. rewrite len_cons in E. replace (p + SS + SS * len st) with (p + SS * (1 + len st)) by ring. exact E.
Qed.
Lemma sfw_len f : Forall (state_wf m) (fst f) -> len (state_file_words m f) = SS * len (fst f) + 1 + len (snd f).
Proof.
  intros F. unfold state_file_words. rewrite !len_app, (len_flat _ _ _ SS); [change (len [eof_word (dm_ws m)]) with 1; ring|]. revert F. apply Forall_impl. exact state_len.
Qed.
Lemma files_run : forall rest pre, dm_files m = pre ++ rest -> rest <> [] ->
  let p := len (root_words m) + len (concat (map (state_file_words m) pre)) in states_from b p (positions p rest).
Proof.
  induction rest as [|f rest IH]; intros pre E Ne p; [congruence|]. clear Ne.
  assert (Fw : Forall (state_wf m) (fst f)).
  { pose proof (proj2 (mw_files m Wf)) as F. rewrite E in F. apply Forall_app in F as [_ F]. inversion F as [|? ? [F1 _] _]. exact F1. }
  assert (EL : L = (root_words m :: map (state_file_words m) pre) ++ state_file_words m f :: map (state_file_words m) rest) by (unfold L; rewrite E, map_app; reflexivity).
  assert (Ep : len (concat (root_words m :: map (state_file_words m) pre)) = p) by (cbn [concat]; rewrite len_app; reflexivity).
  assert (H : lies W p (state_file_words m f)).
  { exists (concat (root_words m :: map (state_file_words m) pre)), (concat (map (state_file_words m) rest)). split; [|exact Ep]. unfold W. rewrite EL, concat_app. reflexivity. }
  pose proof (sfw_len f Fw) as Lf. cbn [positions].
  pose proof (wb_file_end ws L Wsm _ _ _ (p + SS * len (fst f)) EL) as Fe. rewrite Ep in Fe.
  specialize (Fe ltac:(pose proof SS_range; pose proof (len_nonneg _ (fst f)); pose proof (len_nonneg _ (snd f)); nia)).
  apply (file_run (fst f) Fw p (snd f) _ _ _ H Fe). destruct rest as [|g rest]; [reflexivity|]. cbn [map negb].
  assert (Q : p + len (state_file_words m f) = len (root_words m) + len (concat (map (state_file_words m) (pre ++ [f])))).
  { rewrite map_app, concat_app. cbn [map concat]. rewrite !len_app, len_nil. unfold p. ring. }
  rewrite Q. apply IH; [rewrite <- app_assoc; exact E|discriminate].
Qed.
Definition the_states : list Z := positions (len (root_words m)) (dm_files m).
Definition the_titles : Z := 64 + len (geometry m) + id_section_size m + 3.
Lemma p_layout : layout b the_titles the_states.
Proof.
  destruct root_parts as (_ & _ & _ & _ & H5 & H6). pose proof root_len as Rl. pose proof (len_nonneg _ (dm_pad m)) as Lp. pose proof counts as C. pose proof small_counts as Sc. pose proof titles_len as Tl.
  assert (G0 : 0 <= len (geometry m) /\ 0 <= id_section_size m) by (split; [apply len_nonneg|rewrite id_size; lia]).
  exists (64 + len (geometry m) + id_section_size m + 1 + len (titles_block m) + 1), (len (root_words m)). split; [|split].
  - rewrite p_marker. unfold titles_block in H5. cbn [app] in H5. fold NP in H5. apply lies_cons in H5 as [A1 H5]. apply lies_cons in H5 as [A2 H5].
    assert (W1 : wd b (64 + len (geometry m) + id_section_size m + 1) = 90001) by (rewrite b_wbuf; apply (wb_wd ws L Wsm _ _ A1); apply word32; lia).
    assert (W2 : wd b (64 + len (geometry m) + id_section_size m + 1 + 1) = NP) by (rewrite b_wbuf; apply (wb_wd ws L Wsm _ _ A2); apply word32; lia).
    assert (Q : 64 + len (geometry m) + id_section_size m + 1 + 2 + NP * (1 + 72 / ws) = 64 + len (geometry m) + id_section_size m + 1 + len (titles_block m)) by (rewrite Tl; ring).
    apply bl_parts.
    + rewrite b_wbuf. apply (wb_has ws L Wsm) with (1 := A2).
    + lia.
    + exact W1.
    + rewrite W2. change (d_ws b) with ws. rewrite Q. rewrite b_wbuf. apply (wb_below ws L Wsm) with (1 := H6).
    + rewrite W2. change (d_ws b) with ws. rewrite Q. replace (64 + len (geometry m) + id_section_size m + 1 + 2) with the_titles by (unfold the_titles; ring).
      destruct (eof_at _ H6) as (E1 & E2). apply bl_end; assumption.
  - assert (EL : L = [] ++ root_words m :: map (state_file_words m) (dm_files m)) by reflexivity.
    pose proof (wb_file_end ws L Wsm _ _ _ (64 + len (geometry m) + id_section_size m + 1 + len (titles_block m) + 1 - 1) EL) as Fe. cbn [concat] in Fe. rewrite len_nil in Fe. rewrite !Z.add_0_l in Fe.
    rewrite ids_len in Rl. specialize (Fe ltac:(pose proof (len_nonneg _ (titles_block m)); lia)). pose proof (proj1 (mw_files m Wf)) as Nf.
    assert (Nb : negb match map (state_file_words m) (dm_files m) with [] => true | _ => false end = true) by (destruct (dm_files m); [congruence|reflexivity]).
    rewrite Nb in Fe. exact Fe.
  - pose proof (files_run (dm_files m) [] eq_refl (proj1 (mw_files m Wf))) as H. cbv zeta in H. cbn [map concat] in H. rewrite len_nil, Z.add_0_r in H. exact H.
Qed.

(** Where each state is. *)
Lemma file_lies st : Forall (state_wf m) st -> forall p tl, lies W p (flat_map (state_out m) st ++ tl) -> Forall2 (fun p s => lies W p (state_out m s)) (file_states p st) st.
Proof.
  induction 1 as [|s st Ws _ IH]; intros p tl H; [constructor|]. cbn [flat_map] in H. rewrite <- app_assoc in H. apply lies_app in H as [H1 H2]. cbn [file_states]. constructor; [exact H1|].
  rewrite (state_len s Ws) in H2. apply IH with tl. exact H2.
Qed.
Lemma positions_lie : forall rest p, Forall (fun f => Forall (state_wf m) (fst f)) rest -> lies W p (concat (map (state_file_words m) rest)) ->
  Forall2 (fun p s => lies W p (state_out m s)) (positions p rest) (flat_map fst rest).
Proof.
  induction rest as [|f rest IH]; intros p F H; [constructor|]. inversion F as [|? ? F1 F2]; subst. cbn [map concat] in H. apply lies_app in H as [H1 H2]. cbn [positions flat_map].
  apply Forall2_app; [apply (file_lies _ F1 p _ H1)|apply IH; assumption].
Qed.
Lemma states_lie : Forall2 (fun p s => lies W p (state_out m s)) the_states (all_states m).
Proof.
  apply positions_lie.
  - pose proof (proj2 (mw_files m Wf)) as F. revert F. apply Forall_impl. tauto.
  - exists (root_words m), []. rewrite app_nil_r. split; reflexivity.
Qed.
Lemma state_of i s : nth_error (all_states m) i = Some s -> state_wf m s.
Proof.
  intros E. apply nth_error_In in E. unfold all_states in E. apply in_flat_map in E as (f & I & J). pose proof (proj2 (mw_files m Wf)) as F. rewrite Forall_forall in F. destruct (F f I) as [F1 _].
  rewrite Forall_forall in F1. apply F1. exact J.
Qed.
Lemma state_at i s : nth_error (all_states m) i = Some s -> exists p, nth_error the_states i = Some p /\ lies W p (state_out m s).
Proof.
  intros E. pose proof states_lie as F. revert i E. induction F as [|p x l l' H _ IH]; intros i E; [destruct i; discriminate|].
  destruct i as [|i]; [injection E as <-; exists p; split; [reflexivity|exact H]|]. apply IH. exact E.
Qed.

(** ** Reading what was written *)
Definition liew (pos : Z) (l : list Z) : Prop := lies W pos l /\ Forall (is_word ws) l.
Lemma liew_app pos a c : liew pos (a ++ c) -> liew pos a /\ liew (pos + len a) c.
Proof. intros [H F]. apply lies_app in H as [H1 H2]. apply Forall_app in F as [F1 F2]. split; split; assumption. Qed.
Lemma liew_cons pos x l : liew pos (x :: l) -> liew pos [x] /\ liew (pos + 1) l.
Proof. intros H. apply (liew_app pos [x] l) in H. exact H. Qed.
Lemma liew_flat A (f : A -> list Z) n l : Forall (fun x => len (f x) = n) l -> forall pos, liew pos (flat_map f l) ->
  forall i x, nth_error l i = Some x -> liew (pos + Z.of_nat i * n) (f x).
Proof.
  intros F pos [H G] i x E. split; [apply (lies_flat A W f n l F pos H i x E)|]. rewrite Forall_forall in *. intros y I. apply G. apply in_flat_map. exists x. split; [apply nth_error_In in E; exact E|exact I].
Qed.
Lemma liew_stretch pos l n : liew pos l -> len l = n -> stretch b pos n = l.
Proof. intros [H F] <-. rewrite b_wbuf. apply (wb_stretch ws L Wsm l F pos H). Qed.
Lemma liew_wd pos x : liew pos [x] -> wd b pos = x.
Proof. intros [H F]. rewrite b_wbuf. apply (wb_wd ws L Wsm pos x H). inversion F; assumption. Qed.
Lemma liew_nums pos l n : liew pos l -> len l = n -> nums b pos n = dbls ws l.
Proof. intros H E. unfold nums. rewrite (liew_stretch pos l n H E). reflexivity. Qed.
Lemma liew_from pos l : liew pos l -> bytes_from b (pos * ws) (len l * ws) = flat_map (bytes_of (Z.to_nat ws)) l.
Proof. intros [H F]. rewrite b_wbuf. apply (wb_from ws L Wsm pos l H). Qed.
Lemma each_map A B (f : Z -> B) (g : A -> B) l n : len l = n -> (forall i x, nth_error l i = Some x -> f (Z.of_nat i) = g x) -> each n f = map g l.
Proof.
  intros <- H. unfold each. rewrite to_nat_len. assert (Go : forall n0, map (fun i => f (Z.of_nat i)) (seq n0 (length l - n0)) = map g (skipn n0 l)).
  2:{ specialize (Go 0%nat). rewrite Nat.sub_0_r in Go. exact Go. }
  intros n0. remember (length l - n0)%nat as d eqn:D. revert n0 D. induction d as [|d IH]; intros n0 D; [cbn; rewrite skipn_all2 by lia; reflexivity|].
  destruct (nth_error l n0) as [x|] eqn:E; [|apply nth_error_None in E; lia]. rewrite (skipn_nth _ _ _ _ E). cbn [seq map]. rewrite (H _ _ E), IH by lia. reflexivity.
Qed.
Lemma each_id A (f : Z -> A) l n : len l = n -> (forall i x, nth_error l i = Some x -> f (Z.of_nat i) = x) -> each n f = l.
Proof. intros E H. rewrite (each_map A A f (fun x => x) l n E H). apply map_id. Qed.
Lemma liew_skip pos a c : liew pos (a ++ c) -> forall p, p = pos + len a -> liew p c.
Proof. intros H p ->. apply liew_app in H. tauto. Qed.

(** Ids *)
Lemma w_all_ids : liew (64 + len (geometry m) + 16) (all_ids m) /\ liew (64 + len (geometry m) + 16 + len (all_ids m)) (map fst (dm_parts m)).
Proof.
  destruct root_parts as (_ & _ & H & _). unfold ids in H. apply lies_app in H as [_ H]. change (len _) with 16 in H at 2. apply lies_app in H as [H1 H2]. apply lies_app in H2 as [H2 _].
  pose proof in_words as (_ & _ & _ & I4 & I5). split; split; try assumption.
  apply Forall_forall. intros x I. apply in_map_iff in I as (p & <- & I). rewrite Forall_forall in I5. apply I5. apply in_flat_map. exists p. split; [exact I|left; reflexivity].
Qed.
Lemma r_ids : stretch b (ids_start b) (cval b NUMNP) = dm_node_ids m /\ stretch b (i_el8 b) (cval b NEL8) = dm_solid_ids m /\ stretch b (i_el2 b) (cval b NEL2) = dm_beam_ids m /\
  stretch b (i_el4 b) (cval b NEL4) = dm_shell_ids m /\ stretch b (i_elt b) (cval b NELT) = dm_thick_ids m /\ stretch b (i_parts b) (cval b NMMAT) = map fst (dm_parts m).
Proof.
  rewrite p_ids, p_iel8, p_iel2, p_iel4, p_ielt, p_iparts, cv_nodes, cv_el8, cv_el2, cv_el4, cv_elt, cv_nmmat. destruct w_all_ids as [H Hp]. rewrite all_ids_len in Hp. unfold all_ids in H.
  apply liew_app in H as [H1 H]. fold N in H. apply liew_app in H as [H2 H]. rewrite (proj2 (mw_solids m Wf)) in H. fold NS in H. apply liew_app in H as [H3 H]. rewrite (proj2 (mw_beams m Wf)) in H. fold NB in H.
  apply liew_app in H as [H4 H5]. rewrite (proj2 (mw_shells m Wf)) in H5. fold NH in H5.
  split; [apply liew_stretch; [exact H1|reflexivity]|]. split; [apply liew_stretch; [exact H2|apply (proj2 (mw_solids m Wf))]|]. split; [apply liew_stretch; [exact H3|apply (proj2 (mw_beams m Wf))]|].
  split; [apply liew_stretch; [exact H4|apply (proj2 (mw_shells m Wf))]|]. split; [apply liew_stretch; [exact H5|apply (proj2 (mw_thick m Wf))]|].
  apply liew_stretch; [|apply len_map]. replace (64 + len (geometry m) + 16 + N + NS + NB + NH + NT) with (64 + len (geometry m) + 16 + (N + NS + NB + NH + NT)) by ring. exact Hp.
Qed.

(** Connectivities *)
Lemma one_word v : is_index ws v -> is_word ws (one_based v). Proof. unfold is_index, is_word, one_based. lia. Qed.
Lemma zero_one v : is_index ws v -> zero_based (d_ws b) (one_based v) = v.
Proof. intros H. unfold zero_based, one_based, is_index in *. destruct (Z.eqb_spec (v + 1) 0); lia. Qed.
Lemma one_words l : Forall (is_index ws) l -> Forall (is_word ws) (map one_based l).
Proof. intros F. apply Forall_map. revert F. apply Forall_impl. exact one_word. Qed.
Lemma zero_ones l : Forall (is_index ws) l -> map (zero_based (d_ws b)) (map one_based l) = l.
Proof. induction 1 as [|v l H _ IH]; [reflexivity|]. cbn [map]. rewrite (zero_one v H), IH. reflexivity. Qed.
Lemma con_words n c : con_wf ws n c -> Forall (is_word ws) (con_out c).
Proof. intros (_ & F & I). unfold con_out. apply Forall_app. split; [apply one_words; exact F|]. constructor; [apply one_word; exact I|constructor]. Qed.
Lemma beam_con_words c : beam_con_wf ws c -> Forall (is_word ws) (beam_con_out c).
Proof.
  intros (_ & F & I & _ & F2 & I2). unfold beam_con_out. apply Forall_app. split; [apply one_words; exact F|]. constructor; [apply one_word; exact I|]. cbn [app]. apply Forall_app.
  split; [exact F2|]. constructor; [apply one_word; exact I2|constructor].
Qed.
Lemma flat_words A (f : A -> list Z) (P : A -> Prop) l : (forall x, P x -> Forall (is_word ws) (f x)) -> Forall P l -> Forall (is_word ws) (flat_map f l).
Proof. intros H. induction 1; cbn [flat_map]; [constructor|]. apply Forall_app. split; auto. Qed.
Lemma w_geometry : liew (g_el8 b) (flat_map con_out (dm_solids m)) /\ liew (g_elt b) (flat_map con_out (dm_thick m)) /\ liew (g_el2 b) (flat_map beam_con_out (dm_beams m)) /\ liew (g_el4 b) (flat_map con_out (dm_shells m)).
Proof.
  destruct root_parts as (_ & H & _). unfold geometry in H. rewrite p_el8, p_elt, p_el2, p_el4.
  apply lies_app in H as [_ H]. rewrite (mw_coords m Wf) in H. fold N in H.
  apply lies_app in H as [H1 H]. rewrite (len_flat _ con_out (dm_solids m) 9) in H by (apply (cons_len 8); apply Wf). fold NS in H.
  apply lies_app in H as [H2 H]. rewrite (len_flat _ con_out (dm_thick m) 9) in H by (apply (cons_len 8); apply Wf). fold NT in H.
  apply lies_app in H as [H3 H]. rewrite (len_flat _ beam_con_out (dm_beams m) 6) in H by (apply beam_cons_len; apply Wf). fold NB in H.
  repeat split; try assumption.
  - apply (flat_words _ _ _ _ (con_words 8)). apply Wf.
  - apply (flat_words _ _ _ _ (con_words 8)). apply Wf.
  - apply (flat_words _ _ _ _ beam_con_words). apply Wf.
  - apply (flat_words _ _ _ _ (con_words 4)). apply Wf.
Qed.
Lemma con_read pos n c : con_wf ws n c -> liew pos (con_out c) -> map (zero_based (d_ws b)) (stretch b pos n) = c_nodes c /\ zero_based (d_ws b) (wd b (pos + n)) = c_mat c.
Proof.
  intros (E & F & I) H. unfold con_out in H. apply liew_app in H as [H1 H2]. rewrite len_map, E in H2. rewrite (liew_stretch _ _ n H1) by (rewrite len_map; exact E). rewrite (zero_ones _ F).
  rewrite (liew_wd _ _ H2), (zero_one _ I). auto.
Qed.
Lemma cons_read pos n l : Forall (con_wf ws n) l -> liew pos (flat_map con_out l) -> each (len l) (con_spec b pos n) = l.
Proof.
  intros F H. apply each_id; [reflexivity|]. intros i c E. assert (Wc : con_wf ws n c) by (rewrite Forall_forall in F; apply F; apply nth_error_In in E; exact E).
  pose proof (liew_flat _ _ _ _ (cons_len n l F) pos H i c E) as Hc. unfold con_spec. destruct (con_read _ n c Wc Hc) as (A & B). rewrite A, B. destruct c; reflexivity.
Qed.
Lemma r_cons : each (cval b NEL8) (con_spec b (g_el8 b) 8) = dm_solids m /\ each (cval b NELT) (con_spec b (g_elt b) 8) = dm_thick m /\
  each (cval b NEL4) (con_spec b (g_el4 b) 4) = dm_shells m /\ each (cval b NEL2) (beam_con_spec b (g_el2 b)) = dm_beams m.
Proof.
  destruct w_geometry as (H1 & H2 & H3 & H4). rewrite cv_el8, cv_elt, cv_el4, cv_el2. unfold NS, NT, NH, NB.
  split; [apply cons_read; [apply Wf|exact H1]|]. split; [apply cons_read; [apply Wf|exact H2]|]. split; [apply cons_read; [apply Wf|exact H4]|].
  pose proof (proj1 (mw_beams m Wf)) as F. fold ws in F. apply each_id; [reflexivity|]. intros i c E.
  assert (Wc : beam_con_wf ws c) by (rewrite Forall_forall in F; apply F; apply nth_error_In in E; exact E).
  pose proof (liew_flat _ _ _ _ (beam_cons_len _ F) _ H3 i c E) as Hc. destruct Wc as (E1 & F1 & I1 & E2 & F2 & I2). unfold beam_con_out in Hc.
  apply liew_app in Hc as [A1 Hc]. rewrite len_map, E1 in Hc. apply liew_app in Hc as [A2 Hc]. change (len [one_based (bc_orient c)]) with 1 in Hc. apply liew_app in Hc as [A3 A4]. rewrite E2 in A4.
  unfold beam_con_spec. rewrite (liew_stretch _ _ 2 A1) by (rewrite len_map; exact E1). rewrite (zero_ones _ F1), (liew_wd _ _ A2), (zero_one _ I1).
  replace (g_el2 b + Z.of_nat i * 6 + 3) with (g_el2 b + Z.of_nat i * 6 + 2 + 1) by ring. rewrite (liew_stretch _ _ 2 A3 E2).
  replace (g_el2 b + Z.of_nat i * 6 + 5) with (g_el2 b + Z.of_nat i * 6 + 2 + 1 + 2) by ring. rewrite (liew_wd _ _ A4), (zero_one _ I2). destruct c; reflexivity.
Qed.

(** Titles *)
Lemma r_titles : each (cval b NMMAT) (title_bytes b the_titles) = map (fun p => flat_map (bytes_of (Z.to_nat ws)) (snd p)) (dm_parts m).
Proof.
  rewrite cv_nmmat. apply each_map; [reflexivity|]. intros i p E. destruct root_parts as (_ & _ & _ & _ & H & _). unfold titles_block in H. apply lies_app in H as [_ H].
  change (len [90001; len (dm_parts m)]) with 2 in H. replace (64 + len (geometry m) + id_section_size m + 1 + 2) with the_titles in H by (unfold the_titles; ring).
  assert (Fl : Forall (fun p : Z * list Z => len (fst p :: snd p) = 1 + 72 / ws) (dm_parts m)).
  { apply Forall_forall. intros q I. rewrite len_cons, (title_len q I). reflexivity. }
  pose proof in_words as (_ & _ & _ & _ & I5). pose proof (liew_flat _ _ _ _ Fl _ (conj H I5) i p E) as Hp. apply liew_cons in Hp as [_ Hp].
  unfold title_bytes, title_entry. change (d_ws b) with ws. rewrite <- (liew_from _ _ Hp). f_equal.
  pose proof (proj2 (mw_parts m Wf)) as F. rewrite Forall_forall in F. symmetry. apply (F p). apply nth_error_In in E. exact E.
Qed.
Lemma r_title : bytes_from b 0 (10 * d_ws b) = flat_map (bytes_of (Z.to_nat ws)) (dm_title m).
Proof.
  destruct root_parts as (H & _). unfold control in H. destruct (dm_mats m) as [[[? ?] ?] ?]. apply lies_app in H as [H _]. pose proof (liew_from 0 _ (conj H (proj1 in_words))) as E.
  rewrite (mw_title m Wf) in E. exact E.
Qed.
Lemma r_run_time : wd b 10 = dm_run_time m.
Proof. change 10 with (Z.of_nat 10). rewrite (control_nth 10) by lia. rewrite control_tail. destruct (dm_mats m) as [[[? ?] ?] ?]. reflexivity. Qed.
Lemma r_titles_count : wd b (the_titles - 1) = NP.
Proof.
  destruct root_parts as (_ & _ & _ & _ & H & _). unfold titles_block in H. cbn [app] in H. apply lies_cons in H as [_ H]. apply lies_cons in H as [H _].
  replace (the_titles - 1) with (64 + len (geometry m) + id_section_size m + 1 + 1) by (unfold the_titles; ring). apply liew_wd. split; [exact H|].
  constructor; [|constructor]. fold NP. pose proof counts. pose proof small_counts. apply word32. lia.
Qed.

(** States *)
Section State.
Variables (k : nat) (s : dstate) (p : Z).
Hypothesis Hk : nth_error (all_states m) k = Some s.
Hypothesis Hp : lies W p (state_out m s).
Let Sw : state_wf m s := state_of k s Hk.
Lemma w_state : liew p [ds_time s] /\ liew (p + 1 + dm_nglob m) (ds_vector s Coordinates) /\ liew (p + o_vel) (ds_vector s Velocity) /\ liew (p + o_acc) (ds_vector s Acceleration) /\
  liew (p + o_solid) (flat_map (solid_out m) (ds_solids s)) /\ liew (p + o_beam) (flat_map beam_out (ds_beams s)) /\ liew (p + o_shell) (flat_map (shell_out m) (ds_shells s)) /\ liew (p + o_thick) (flat_map (thick_out m) (ds_thick s)).
Proof.
  pose proof (conj Hp (sw_words m s Sw)) as H. change (liew p (state_out m s)) in H. destruct Sw as [W1 W2 W3 W4 [W5 F5] [W6 F6] [W7 F7] [W8 F8]].
  unfold state_out, vectors_out in H. rewrite <- !app_assoc in H.
  apply liew_app in H as [H1 H]. apply liew_app in H as [H2 H]. apply liew_app in H as [H3 H]. apply liew_app in H as [H4 H]. apply liew_app in H as [H5 H]. apply liew_app in H as [H6 H].
  apply liew_app in H as [H7 H]. apply liew_app in H as [H8 H].
  rewrite (len_flat _ _ _ (nv3d m)) in * by (revert F5; apply Forall_impl; exact solid_len). rewrite W5 in *.
  rewrite (len_flat _ _ _ (nv1d m)) in * by (revert F6; apply Forall_impl; exact beam_len). rewrite W6 in *.
  rewrite (len_flat _ _ _ (nv2d m)) in * by (revert F7; apply Forall_impl; exact shell_len). rewrite W7 in *.
  rewrite W3, !W4 in *. change (len [ds_time s]) with 1 in *. fold N NS NB NH NT in H1, H2, H3, H4, H5, H6, H7, H8, H. fold (vlen Coordinates) (vlen Velocity) (vlen Acceleration) in H1, H2, H3, H4, H5, H6, H7, H8, H.
  unfold o_thick, o_shell, o_beam, o_solid, o_acc, o_vel. rewrite !Z.add_assoc in *. auto 10.
Qed.
Lemma r_time : wd b p = ds_time s. Proof. apply liew_wd. apply w_state. Qed.
Lemma r_vector v : dm_has m v = true -> announced b v = 1 /\ stretch b (p + vector_place b v) (3 * cval b NUMNP) = ds_vector s v.
Proof.
  intros E. pose proof (sw_vectors m s Sw v) as Lv. rewrite E in Lv. destruct w_state as (_ & H1 & H2 & H3 & _). rewrite cv_nodes.
  destruct v; unfold announced, vector_place; rewrite ?cv_iu, ?cv_iv, ?cv_ia, ?p_coords, ?p_vel, ?p_acc, E; (split; [reflexivity|]); apply liew_stretch; try assumption.
  rewrite Z.add_assoc. exact H1.
Qed.
Lemma dbls_0 n : dbls ws (repeat 0 n) = repeat 0 n.
Proof. unfold dbls. assert (E : to_double ws 0 = 0) by (destruct Wsm as [-> | ->]; reflexivity). induction n; cbn [repeat map]; [reflexivity|]. rewrite E, IHn. reflexivity. Qed.
Lemma g1 pos l n : liew pos l -> len l = n -> group b 1 pos n = dbls ws l. Proof. apply liew_nums. Qed.
Lemma s1 pos x : liew pos [x] -> single b 1 pos = to_double ws x. Proof. intros H. unfold single. change (1 =? 0) with false. cbv iota. rewrite (liew_wd _ _ H). reflexivity. Qed.
Ltac io := rewrite ?(cv_ioshl IOSHL0), ?(cv_ioshl IOSHL1), ?(cv_ioshl IOSHL2), ?(cv_ioshl IOSHL3) by (cbn [In]; tauto); change (ioshl 1000) with 1; change (iosol 1000) with 1.
Lemma p_solid_words : solid_words b = nv3d m.
Proof. unfold solid_words, nv3d. io. rewrite cv_neiph. ring. Qed.
Lemma r_solid pos x : solid_wf x -> liew pos (solid_out m x) -> solid_spec b strain_flag pos = solid_read ws (fst x).
Proof.
  intros (A & B & C) H. unfold solid_out in H. apply liew_app in H as [H1 H]. rewrite A in H. apply liew_app in H as [H2 H]. change (len [so_plastic (fst x)]) with 1 in H. apply liew_app in H as [H3 H]. rewrite C in H.
  unfold solid_spec, solid_read. rewrite p_solid_words. io. rewrite (g1 _ _ 6 H1 A). replace (pos + 6 * 1) with (pos + 6) by ring. rewrite (s1 _ _ H2). f_equal.
  rewrite cv_neiph. unfold strain_flag, strain_words, strain_out, strain_wf, nv3d, strain_words in *. destruct (dm_strain m); cbn [bit].
  - pose proof sizes. destruct (Z.leb_spec 6 (dm_solid_hist m + 6)); [|lia]. change (1 =? 1) with true. cbn [andb]. apply liew_nums; [|exact B].
    replace (pos + (7 + dm_solid_hist m + 6) - 6) with (pos + 6 + 1 + dm_solid_hist m) by ring. exact H.
  - change (0 =? 1) with false. cbn [andb]. rewrite B, dbls_0. reflexivity.
Qed.
Lemma r_solids : each (cval b NEL8) (fun i => solid_spec b strain_flag (p + s_solid b + i * cval b NV3D)) = map (fun x => solid_read ws (fst x)) (ds_solids s).
Proof.
  destruct w_state as (_ & _ & _ & _ & H & _). pose proof (sw_solids m s Sw) as [E F]. rewrite cv_el8, cv_nv3d, p_solid. apply each_map; [exact E|]. intros i x N0.
  assert (F' : Forall (fun x => len (solid_out m x) = nv3d m) (ds_solids s)) by (revert F; apply Forall_impl; exact solid_len).
  apply r_solid; [rewrite Forall_forall in F; apply F; apply nth_error_In in N0; exact N0|]. apply (liew_flat _ _ _ _ F' _ H i x N0).
Qed.
Lemma r_surface pos v : point_wf m v -> liew pos (point_out v) -> surface_spec b pos = point_read ws v.
Proof.
  intros (A & B) H. unfold point_out in H. apply liew_app in H as [H1 H]. rewrite A in H. apply liew_app in H as [H2 H3]. change (len [v_plastic v]) with 1 in H3.
  unfold surface_spec, point_read. io. rewrite (g1 _ _ 6 H1 A). replace (pos + 6 * 1) with (pos + 6) by ring. rewrite (s1 _ _ H2). f_equal. rewrite cv_neips. apply liew_nums; assumption.
Qed.
Lemma p_ip_words : ip_words b = 7 + dm_ip_hist m. Proof. unfold ip_words. io. rewrite cv_neips. ring. Qed.
Lemma p_ips : ips_of b = dm_ips m. Proof. exact p_maxint. Qed.
Lemma p_stored : stored1 strain_flag = strain_flag. Proof. unfold strain_flag. destruct (dm_strain m); reflexivity. Qed.
Lemma strain_words_12 : 12 * strain_flag = strain_words m 12. Proof. unfold strain_flag, strain_words. destruct (dm_strain m); reflexivity. Qed.
Lemma r_strains pos a c : strain_wf m a -> strain_wf m c -> liew pos (strain_out m (a ++ c)) -> group b strain_flag pos 6 = dbls ws a /\ group b strain_flag (pos + 6) 6 = dbls ws c.
Proof.
  unfold strain_wf, strain_out, strain_flag. destruct (dm_strain m); cbn [bit]; intros A C H.
  - apply liew_app in H as [H1 H2]. rewrite A in H2. split; apply g1; assumption.
  - rewrite A, C, dbls_0. split; reflexivity.
Qed.
Lemma r_shell pos v : shell_wf v -> liew pos (shell_out m v) -> shell_spec b strain_flag pos = shell_read ws v.
Proof.
  intros (A & B & C & D & E1 & E2 & E3 & E4) H. unfold shell_out in H. apply liew_app in H as [H1 H]. rewrite (len_flat _ _ _ _ (points_len _ B)), A in H.
  apply liew_app in H as [H2 H]. rewrite E1 in H. apply liew_app in H as [H3 H]. rewrite E2 in H. apply liew_app in H as [H4 H]. rewrite E3 in H.
  apply liew_app in H as [H5 H]. change (len [w_thickness v]) with 1 in H. apply liew_app in H as [H6 H]. rewrite E4 in H. apply liew_app in H as [H7 H]. change (len [w_energy v]) with 1 in H.
  unfold shell_spec, shell_read. rewrite p_stored, p_ips, p_ip_words. io. cbv zeta. set (q := pos + dm_ips m * (7 + dm_ip_hist m)).
  replace (pos + (7 + dm_ip_hist m) * dm_ips m) with q in * by (unfold q; ring).
  destruct (r_strains (q + 8 * 1 + 4 * 1) _ _ C D) as (S1 & S2); [replace (q + 8 * 1 + 4 * 1) with (q + 3 + 2 + 3 + 1 + 2 + 1) by ring; exact H|]. rewrite S1, S2.
  rewrite (g1 _ _ 3 H2 E1), (g1 _ _ 2 H3 E2). replace (q + 5) with (q + 3 + 2) by ring. rewrite (g1 _ _ 3 H4 E3). replace (q + 8 * 1) with (q + 3 + 2 + 3) by ring. rewrite (s1 _ _ H5), (g1 _ _ 2 H6 E4).
  replace (q + 3 + 2 + 3 + 3) with (q + 3 + 2 + 3 + 1 + 2) by ring. rewrite (s1 _ _ H7). f_equal.
  apply each_map; [exact A|]. intros j x N0. apply r_surface; [rewrite Forall_forall in B; apply B; apply nth_error_In in N0; exact N0|]. apply (liew_flat _ _ _ _ (points_len _ B) _ H1 j x N0).
Qed.
Lemma p_shell_words : shell_words b strain_flag = nv2d m.
Proof. unfold shell_words, nv2d. rewrite p_stored, p_ips, p_ip_words, strain_words_12. io. ring. Qed.
Lemma r_shells : each (cval b NEL4) (fun i => shell_spec b strain_flag (p + s_shell b + i * cval b NV2D)) = map (shell_read ws) (ds_shells s).
Proof.
  destruct w_state as (_ & _ & _ & _ & _ & _ & H & _). pose proof (sw_shells m s Sw) as [E F]. rewrite cv_el4, cv_nv2d, p_shell. apply each_map; [exact E|]. intros i x N0.
  assert (F' : Forall (fun x => len (shell_out m x) = nv2d m) (ds_shells s)) by (revert F; apply Forall_impl; exact shell_len).
  apply r_shell; [rewrite Forall_forall in F; apply F; apply nth_error_In in N0; exact N0|]. apply (liew_flat _ _ _ _ F' _ H i x N0).
Qed.
Lemma r_thick pos v : thick_wf v -> liew pos (thick_out m v) -> thick_spec b strain_flag pos = thick_read ws v.
Proof.
  intros (A & B & C & D) H. pose proof sizes as Sz. unfold thick_out in H. pose proof B as B0. rewrite <- (firstn_skipn 3 (x_ips v)) in B0. apply Forall_app in B0 as [B1 B2].
  apply liew_app in H as [H1 H]. rewrite (len_flat _ _ _ _ (points_len _ B1)) in H. assert (L3 : len (firstn 3 (x_ips v)) = 3) by (unfold len in *; rewrite firstn_length; lia).
  rewrite L3 in H. apply liew_app in H as [H2 H3]. rewrite (strain_out_len _ 12) in H3 by (intros T; rewrite len_app, (strain_len _ C T), (strain_len _ D T); reflexivity).
  unfold thick_spec, thick_read. rewrite p_stored, p_ips, p_ip_words, strain_words_12. replace (pos + 3 * (7 + dm_ip_hist m)) with (pos + (7 + dm_ip_hist m) * 3) by ring.
  destruct (r_strains _ _ _ C D H2) as (S1 & S2). rewrite S1, S2. f_equal.
  apply each_map; [exact A|]. intros j x N0. assert (Px : point_wf m x) by (rewrite Forall_forall in B; apply B; apply nth_error_In in N0; exact N0).
  apply r_surface; [exact Px|]. destruct (Z.ltb_spec (Z.of_nat j) 3) as [R|R].
  - rewrite Z.add_0_r. apply (liew_flat _ _ _ _ (points_len _ B1) _ H1 j x). rewrite <- N0. rewrite <- (firstn_skipn 3 (x_ips v)) at 2. rewrite nth_error_app1 by (unfold len in L3; lia). reflexivity.
  - assert (N1 : nth_error (skipn 3 (x_ips v)) (j - 3) = Some x).
    { rewrite <- N0. rewrite <- (firstn_skipn 3 (x_ips v)) at 2. rewrite nth_error_app2 by (unfold len in L3; lia). f_equal. unfold len in L3. lia. }
    pose proof (liew_flat _ _ _ _ (points_len _ B2) _ H3 _ x N1) as Q. replace (Z.of_nat (j - 3)) with (Z.of_nat j - 3) in Q by lia.
    replace (pos + Z.of_nat j * (7 + dm_ip_hist m) + strain_words m 12) with (pos + (7 + dm_ip_hist m) * 3 + strain_words m 12 + (Z.of_nat j - 3) * (7 + dm_ip_hist m)) by ring. exact Q.
Qed.
Lemma p_thick_words : thick_words b strain_flag = nv3dt m.
Proof. unfold thick_words, nv3dt. rewrite p_stored, p_ips, p_ip_words, strain_words_12. ring. Qed.
Lemma r_thicks : each (cval b NELT) (fun i => thick_spec b strain_flag (p + s_tshell b + i * cval b NV3DT)) = map (thick_read ws) (ds_thick s).
Proof.
  destruct w_state as (_ & _ & _ & _ & _ & _ & _ & H). pose proof (sw_thick m s Sw) as [E F]. rewrite cv_elt, cv_nv3dt, p_tshell. apply each_map; [exact E|]. intros i x N0.
  assert (F' : Forall (fun x => len (thick_out m x) = nv3dt m) (ds_thick s)) by (revert F; apply Forall_impl; exact thick_len).
  apply r_thick; [rewrite Forall_forall in F; apply F; apply nth_error_In in N0; exact N0|]. apply (liew_flat _ _ _ _ F' _ H i x N0).
Qed.
Lemma nums_0 pos : nums b pos 0 = []. Proof. reflexivity. Qed.
Lemma r_beam pos v : beam_wf v -> liew pos (beam_out v) -> beam_spec b (dm_beam_ips m) pos = beam_read ws v.
Proof.
  intros (A & B & C & D1 & D2 & D3) H. unfold beam_out in H. apply liew_app in H as [H1 H2]. rewrite A in H2. unfold beam_spec, beam_read. rewrite (cv_0 NEIPB) by (cbn [In]; tauto). cbv zeta.
  rewrite !nums_0, D1, D2, D3, (liew_nums _ _ 6 H1 A). cbn [dbls map]. f_equal. apply each_map; [exact B|]. intros j x N0.
  assert (C' : Forall (fun p : list Z * list Z => len (fst p) = 5) (y_ips v)) by (revert C; apply Forall_impl; tauto).
  pose proof (liew_flat _ _ _ _ C' _ H2 j x N0) as Hx. rewrite Forall_forall in C. destruct (C x (nth_error_In _ _ N0)) as [C1 C2].
  replace (pos + 6 + 5 * Z.of_nat j) with (pos + 6 + Z.of_nat j * 5) by ring. rewrite (liew_nums _ _ 5 Hx C1), !nums_0, C2. reflexivity.
Qed.
Lemma r_beams : each (cval b NEL2) (fun i => beam_spec b (dm_beam_ips m) (p + s_beam b + i * cval b NV1D)) = map (beam_read ws) (ds_beams s).
Proof.
  destruct w_state as (_ & _ & _ & _ & _ & H & _). pose proof (sw_beams m s Sw) as [E F]. rewrite cv_el2, cv_nv1d, p_beam. apply each_map; [exact E|]. intros i x N0.
  assert (F' : Forall (fun x => len (beam_out x) = nv1d m) (ds_beams s)) by (revert F; apply Forall_impl; exact beam_len).
  apply r_beam; [rewrite Forall_forall in F; apply F; apply nth_error_In in N0; exact N0|]. apply (liew_flat _ _ _ _ F' _ H i x N0).
Qed.
End State.

(** ** The size of a word is found *)
Lemma le_app a c : le_value (a ++ c) = le_value a + 256 ^ len a * le_value c.
Proof.
  induction a as [|x a IH]; cbn [app le_value]; [rewrite len_nil; ring|]. rewrite IH, len_cons, Z.pow_add_r by (pose proof (len_nonneg _ a); lia). change (256 ^ 1) with 256. ring.
Qed.
Lemma not_plausible : text_title m -> ~ plausible b (12 - ws).
Proof.
  intros Tt P. unfold plausible in P. cbv zeta in P. unfold text_title in Tt. fold ws in Tt. pose proof root_parts as (H & _). unfold control in H. destruct (dm_mats m) as [[[m8 m2] m4] mt] eqn:Em.
  apply lies_app in H as [H1 H]. rewrite (mw_title m Wf) in H. pose proof id_size as Is. pose proof counts as C. pose proof small_counts as Sc.
  unfold word_at in P. change (all_bytes b) with (all_bytes (wbuf ws L)) in P. destruct Wsm as [E|E].
  - destruct P as (_ & _ & _ & P & _). do 28 (apply lies_cons in H as [_ H]). cbn [Z.add] in H.
    match type of H with lies _ ?p (?x :: ?y :: ?r) => change (lies W 38 ([x; y] ++ r)) in H end. apply lies_app in H as [H _].
    pose proof (wb_from ws L Wsm 38 _ H) as F. change (len [0; id_section_size m]) with 2 in F. rewrite E in F, P. change (12 - 4) with 8 in P. change (38 * 4) with (19 * 8) in F. change (2 * 4) with 8 in F.
    rewrite b_wbuf, E, F in P. cbn [flat_map] in P. rewrite app_nil_r, le_app, !le_bytes_of in P.
    + unfold len in P. rewrite bytes_of_length in P. change (256 ^ Z.of_nat (Z.to_nat 4)) with (2 ^ 32) in P. lia.
    + change (256 ^ Z.of_nat (Z.to_nat 4)) with (2 ^ 32). lia.
    + change (256 ^ Z.of_nat (Z.to_nat 4)) with (2 ^ 32). lia.
  - destruct P as (P & _). specialize (Tt E). pose proof (mw_title m Wf) as Lt. unfold len in Lt.
    assert (Hn : nth_error (dm_title m) 7 = Some (nth 7 (dm_title m) 0)) by (apply nth_error_nth'; lia). set (x := nth 7 (dm_title m) 0) in *.
    assert (X : is_word ws x). { pose proof in_words as (F & _). rewrite Forall_forall in F. apply F. apply nth_error_In in Hn. exact Hn. }
    apply nth_error_split in Hn as (l1 & l2 & El & L1). rewrite El in H1. apply lies_app in H1 as [_ H1]. apply lies_cons in H1 as [H1 _]. unfold len in H1. rewrite L1 in H1. cbn [Z.add Z.of_nat Pos.of_succ_nat Pos.succ] in H1.
    pose proof (wb_from ws L Wsm 7 _ H1) as F. change (len [x]) with 1 in F. rewrite E in F, P. change (12 - 8) with 4 in P. change (7 * 8) with 56 in F. change (1 * 8) with 8 in F. cbn [flat_map] in F. rewrite app_nil_r in F.
    assert (F2 : bytes_from b (15 * 4) 4 = bytes_of 4 (x / 256 / 256 / 256 / 256)).
    { rewrite b_wbuf, E. assert (Y : skipn 4 (bytes_from (wbuf 8 L) 56 8) = bytes_from (wbuf 8 L) 60 4).
      { unfold bytes_from. rewrite skipn_firstn_comm, skipn_skipn. reflexivity. }
      change (15 * 4) with 60. rewrite <- Y, F. reflexivity. }
    rewrite F2, le_bytes_of in P.
    + rewrite !Z.div_div in P by lia. change (256 * (256 * (256 * 256))) with (2 ^ 32) in P. lia.
    + unfold is_word in X. rewrite E in X. change (256 ^ Z.of_nat 4) with (2 ^ 32). rewrite !Z.div_div by lia. change (256 * (256 * (256 * 256))) with (2 ^ 32). split; [apply Z.div_pos; lia|apply Z.div_lt_upper_bound; lia].
Qed.
End Model.
