(** * Proofs about the sizes of the blocks readers return *)
From Coq Require Import Sorting.Permutation.
From Verif Require Import CBase CBaseFacts SearchModel BinModel D3BufModel D3Model D3ReadModel D3PartModel CppArrayModel OwnModel KeyMemProofs ReadMemModel ReadMemSpec ReadMemProofs.
Open Scope nat_scope.

Lemma room_lt h p n : room h p n -> fst p < length h.
Proof. intros (c & E & _). apply nth_error_Some. congruence. Qed.
Lemma malloc_room h c : room (fst (h_malloc h c)) (snd (h_malloc h c)) (length c).
Proof. exists c. cbn. rewrite nth_error_app2, Nat.sub_diag by lia. auto. Qed.
Lemma room_malloc h c p n : room h p n -> room (fst (h_malloc h c)) p n.
Proof. intros R. pose proof (room_lt _ _ _ R). destruct R as (x & E & L). exists x. cbn. rewrite nth_error_app1 by lia. auto. Qed.
Lemma free_at h q h' : h_free h q = OK h' -> length h' = length h /\ forall k, k <> fst q -> nth_error h' k = nth_error h k.
Proof.
  unfold h_free. destruct (aget h (fst q)) as [[c|]| |] eqn:E; cbn [bind]; try discriminate. destruct (snd q =? 0); [|discriminate]. intros Es.
  apply aget_OK in E. assert (L : fst q < length h) by (apply nth_error_Some; congruence). destruct (aset_at h (fst q) None L) as (h2 & Q & Ln & N). rewrite Q in Es. injection Es as <-.
  split; [exact Ln|]. intros k Hk. rewrite N. replace (k =? fst q) with false by (symmetry; apply Nat.eqb_neq; exact Hk). reflexivity.
Qed.
Lemma room_free h q h' p n : h_free h q = OK h' -> fst p <> fst q -> room h p n -> room h' p n.
Proof. intros F Ne (c & E & L). destruct (free_at _ _ _ F) as (_ & N). exists c. rewrite N by exact Ne. auto. Qed.
Lemma room_free_opt h q h' p n : h_free_opt h q = OK h' -> q <> Some p -> (forall x, q = Some x -> fst p <> fst x) -> room h p n -> room h' p n.
Proof. destruct q as [q|]; cbn; [intros F _ Ne; apply room_free with q; auto|intros E _ _; injection E as <-; auto]. Qed.
Lemma room_leaves h h' ps p n : leaves h h' ps -> room h p n -> room h' p n.
Proof. intros (A & _) R. pose proof (room_lt _ _ _ R) as L. destruct R as (c & E & Lc). exists c. rewrite A by exact L. auto. Qed.
Ltac mcase := match goal with |- context [h_malloc ?h ?c] => let M := fresh "M" in let L := fresh "L" in
  pose proof (malloc_room h c) as M; pose proof (room_malloc h c) as L; let h1 := fresh "h" in let q := fresh "q" in
  let E := fresh "Em" in assert (E : fst (snd (h_malloc h c)) = length h) by reflexivity;
  let El := fresh "El" in assert (El : length (fst (h_malloc h c)) = S (length h)) by (cbn; rewrite app_length; cbn; lia);
  destruct (h_malloc h c) as [h1 q]; cbn [fst snd] in M, L, E, El end.

Lemma block_length n : length (block_of n) = Z.to_nat n.
Proof. unfold block_of, malloc. apply repeat_length. Qed.
Lemma read_into_room {A} h ws num wn (read : res (plot * option A)) h' pl l p :
  read_into h ws num wn read = OK (h', pl, Some (l, p)) -> room h' p (Z.to_nat num) /\ read = OK (pl, Some l).
Proof.
  unfold read_into. mcase. rewrite block_length in M. destruct (ws =? 4)%Z.
  - mcase. destruct read as [[pl1 [l1|]]| |]; cbn [bind]; try discriminate.
    + destruct (h_free _ _) as [h3| |] eqn:F; try discriminate. cbn [bind]. intros E. injection E as <- <- <- <-. split; [|reflexivity].
      apply (room_free _ _ _ _ _ F); [|apply L0; exact M]. pose proof (room_lt _ _ _ M). lia.
    + destruct (h_free _ _) as [h3| |]; try discriminate. cbn [bind]. destruct (h_free _ _); discriminate.
  - destruct read as [[pl1 [l1|]]| |]; cbn [bind]; try discriminate; [intros E; injection E as <- <- <- <-; auto|destruct (h_free _ _); discriminate].
Qed.
Lemma read_at_len pl n pos pl' l : read_at pl n pos = OK (pl', Some l) -> length l = Z.to_nat n.
Proof. unfold read_at. destruct (read_bytes_at pl n pos) as [[pl1 [d|]]| |]; cbn [bind]; try discriminate. intros E. injection E as _ <-. apply words_len. Qed.
Lemma read_ids_room h pl k num h' pl' l p : read_ids_mem h pl k num = OK (h', pl', (l, Some p)) -> room h' p (length l).
Proof.
  unfold read_ids_mem. destruct (num =? 0)%Z; [discriminate|]. destruct (read_into _ _ _ _ _) as [[[h1 pl1] [[l1 p1]|]]| |] eqn:E; cbn [bind as_held]; try discriminate.
  intros Q. injection Q as <- <- <- <-. apply read_into_room in E as (R & Er). apply read_at_len in Er. rewrite Er. exact R.
Qed.
Lemma read_con_room {A} h pl num w k (f : Z -> list Z -> nat -> res A) h' pl' l p : read_con_mem h pl num w k f = OK (h', pl', (l, Some p)) -> room h' p (length l).
Proof.
  unfold read_con_mem. destruct (num <=? 0)%Z; [discriminate|]. destruct (read_into _ _ _ _ _) as [[[h1 pl1] [[l1 p1]|]]| |] eqn:E; cbn [bind as_held]; try discriminate.
  intros Q. injection Q as <- <- <- <-. apply read_into_room in E as (R & Er). destruct (read_at _ _ _) as [[pl3 [d|]]| |]; cbn [bind] in Er; try discriminate.
  destruct (build _ _ _) as [x| |] eqn:Eb; try discriminate. cbn [bind] in Er. injection Er as _ <-. apply build_len in Eb. rewrite Eb. exact R.
Qed.
Lemma title_ids_len n : forall c c' l, title_ids n c = OK (c', l) -> length l = n.
Proof.
  induction n as [|n IH]; intros c c' l E; cbn [title_ids] in E; [injection E as _ <-; reflexivity|].
  repeat match type of E with
  | bind ?x _ = OK _ => let Q := fresh "Q" in destruct x eqn:Q; cbn [bind] in E; try discriminate
  | (let '(_, _) := ?x in _) = OK _ => destruct x
  | OK _ = OK _ => injection E as <- <-
  end.
  all: cbn; f_equal; eapply IH; eassumption.
Qed.
Lemma read_part_ids_room h pl h' pl' l p : read_part_ids_mem h pl = OK (h', pl', (l, Some p)) -> room h' p (length l).
Proof.
  unfold read_part_ids_mem. change (pl_ptr (clear pl) K_PART_IDS) with (pl_ptr pl K_PART_IDS). change (pl_ptr (clear pl) K_PART_TITLES) with (pl_ptr pl K_PART_TITLES). change (pl_cd (clear pl) NMMAT) with (pl_cd pl NMMAT).
  destruct (pl_ptr pl K_PART_IDS =? 0)%Z eqn:E1; [destruct (pl_ptr pl K_PART_TITLES =? 0)%Z eqn:E2; [discriminate|]|apply read_ids_room].
  mcase. rewrite block_length in M. unfold read_part_ids. change (pl_ptr (clear (clear pl)) K_PART_IDS) with (pl_ptr pl K_PART_IDS). change (pl_ptr (clear (clear pl)) K_PART_TITLES) with (pl_ptr pl K_PART_TITLES).
  change (pl_cd (clear (clear pl)) NMMAT) with (pl_cd pl NMMAT). rewrite E1, E2. destruct (Z.to_nat (pl_cd pl NMMAT)) as [|n]; [discriminate|].
  destruct (read_words_at _ _ _) as [[[b p1] d]| |]; cbn [bind]; try discriminate. destruct (skipb (b, p1) 72) as [c| |]; cbn [bind]; try discriminate.
  destruct (title_ids n c) as [[c' l1]| |] eqn:Et; cbn [bind]; try discriminate. destruct (pointer_close _ _); cbn [bind]; try discriminate.
  intros E. injection E as <- <- <- <-. cbn [length]. rewrite (title_ids_len _ _ _ _ Et). exact M.
Qed.
Lemma read_title_room h pl h' pl' l p : read_title_mem h pl = OK (h', pl', Some (l, p)) -> room h' p (Z.to_nat (10 * d_ws (pl_buf pl) + 1)).
Proof.
  unfold read_title_mem. mcase. rewrite block_length in M. change (pl_buf (clear pl)) with (pl_buf pl) in *. destruct (read_bytes_at _ _ _) as [[pl1 [d|]]| |]; cbn [bind]; try discriminate.
  - intros E. injection E as <- <- <- <-. exact M.
  - destruct (h_free _ _); discriminate.
Qed.
Lemma more_titles_room n : forall h c h' c' ps l, more_titles_mem h n c = OK (h', c', ps, l) ->
  length h <= length h' /\ (forall p k, room h p k -> room h' p k) /\ forall p, In (Some p) ps -> room h' p 73.
Proof.
  induction n as [|n IH]; intros h c h' c' ps l E; cbn [more_titles_mem] in E; [injection E as <- <- <- <-; split; [lia|]; split; [auto|intros p []]|].
  revert E. mcase. rewrite block_length in M. change (Z.to_nat 73) with 73 in M. assert (Lh : length h <= length h0) by (pose proof (room_lt _ _ _ M); lia).
  destruct (skip c 1) as [c1| |]; cbn [bind]; try discriminate. destruct (read_words _ _ _) as [[[b p1] d]| |]; cbn [bind]; try discriminate. destruct (d_err b).
  - intros E. injection E as <- <- <- <-. split; [exact Lh|]. split; [exact L|]. intros p [Q|[]]. injection Q as <-. exact M.
  - destruct (more_titles_mem h0 n (b, p1)) as [[[[h2 c2] ps2] l2]| |] eqn:Em2; cbn [bind]; try discriminate. intros E. injection E as <- <- <- <-.
    destruct (IH _ _ _ _ _ _ Em2) as (A & B & C). split; [lia|]. split; [intros p k R; apply B, L, R|]. intros p [Q|I]; [injection Q as <-; apply B, M|apply C, I].
Qed.
Lemma read_part_titles_room h pl h' pl' l ps p : read_part_titles_mem h pl = OK (h', pl', Some (l, ps, p)) ->
  room h' p (Z.to_nat (pl_cd pl NMMAT)) /\ forall q, In (Some q) ps -> room h' q 73.
Proof.
  unfold read_part_titles_mem. change (pl_cd (clear pl) NMMAT) with (pl_cd pl NMMAT). mcase. rewrite block_length in M. destruct (Z.to_nat (pl_cd pl NMMAT)) as [|n]; [discriminate|].
  mcase. rewrite block_length in M0. change (Z.to_nat 73) with 73 in M0. destruct (read_words_at _ _ _) as [[[b p1] d]| |]; cbn [bind]; try discriminate. destruct (d_err b).
  - cbn [bind]. destruct (pointer_close _ _); cbn [bind]; try discriminate. destruct (h_free_all _ _); cbn [bind]; try discriminate. destruct (h_free _ _); discriminate.
  - destruct (more_titles_mem h1 n (b, p1)) as [[[[h2 c2] ps2] l2]| |] eqn:E2; cbn [bind]; try discriminate. destruct (more_titles_room _ _ _ _ _ _ _ E2) as (_ & B & C).
    destruct (pointer_close _ _); cbn [bind]; try discriminate. destruct l2 as [l2|]; [|destruct (h_free_all _ _); cbn [bind]; try discriminate; destruct (h_free _ _); discriminate].
    intros E. injection E as <- <- <- <- <-. split; [apply B, L0, M|]. intros x [Q|I]; [injection Q as <-; apply B, M0|apply C, I].
Qed.
Lemma all_times_len ss : forall pl pl' l, all_times pl ss = OK (pl', Some l) -> length l = length ss.
Proof.
  induction ss as [|s r IH]; intros pl pl' l E; cbn [all_times] in E; [injection E as _ <-; reflexivity|].
  destruct (read_at _ _ _) as [[pl1 [[|v d]|]]| |]; cbn [bind] in E; try discriminate. destruct (all_times pl1 r) as [[pl2 [l2|]]| |] eqn:Ea; cbn [bind] in E; try discriminate.
  injection E as _ <-. cbn [length]. f_equal. eapply IH, Ea.
Qed.
Lemma read_all_time_room h pl h' pl' l p : read_all_time_mem h pl = OK (h', pl', Some (l, p)) -> room h' p (length l).
Proof.
  unfold read_all_time_mem. mcase. rewrite block_length, Nat2Z.id in M. destruct (all_times _ _) as [[pl1 [l1|]]| |] eqn:Ea; cbn [bind]; try discriminate.
  - intros E. injection E as <- <- <- <-. apply all_times_len in Ea. rewrite Ea. exact M.
  - destruct (h_free _ _); discriminate.
Qed.
Lemma u64_id z : (0 <= z < 2 ^ 64)%Z -> u64 z = z.
Proof. unfold u64. apply Z.mod_small. Qed.
Lemma node_words_room h pl state k h' pl' l p : few_nodes pl -> node_words_mem h pl state k = OK (h', pl', Some (l, p)) ->
  room h' p (length l) /\ length l = Z.to_nat (pl_cd pl NUMNP * 3) /\ pl_cd pl' = pl_cd pl.
Proof.
  intros F. unfold node_words_mem. change (pl_cd (clear pl)) with (pl_cd pl). change (pl_ptr (clear pl)) with (pl_ptr pl). destruct (pl_ptr pl k =? 0)%Z; [discriminate|]. destruct (state_at _ _); [|discriminate].
  rewrite (u64_id _ F). mcase. rewrite block_length in M. destruct (read_at _ _ _) as [[pl1 [l1|]]| |] eqn:Er; cbn [bind]; try discriminate.
  - intros E. injection E as <- <- <- <-. pose proof (read_at_len _ _ _ _ _ Er) as Ln. rewrite Ln. split; [exact M|]. split; [reflexivity|]. apply (read_at_keeps (clear pl) _ _ _ _ eq_refl Er).
  - destruct (h_free _ _); discriminate.
Qed.
Lemma node_data_room h pl state k h' pl' l p : few_nodes pl -> node_data_mem h pl state k = OK (h', pl', Some (l, p)) -> room h' p (length l).
Proof.
  intros F. unfold node_data_mem. destruct (node_words_mem h pl state k) as [[[h1 pl1] [[l1 p1]|]]| |] eqn:E1; cbn [bind]; try discriminate.
  destruct (node_words_room _ _ _ _ _ _ _ _ F E1) as (R & Ln & Cd). destruct (d_ws (pl_buf pl1) =? 4)%Z.
  - mcase. rewrite block_length in M. destruct (h_free _ _) as [h3| |] eqn:Ef; cbn [bind]; try discriminate. intros E. injection E as <- <- <- <-. rewrite map_length, Ln.
    rewrite Cd in M. apply (room_free _ _ _ _ _ Ef); [|exact M]. pose proof (room_lt _ _ _ R). lia.
  - intros E. injection E as <- <- <- <-. rewrite map_length. exact R.
Qed.
Lemma all_node_words_len k ss : forall pl pl' l, few_nodes pl -> pl_err pl = None -> all_node_words pl k ss = OK (pl', Some l) -> length l = length ss * Z.to_nat (pl_cd pl NUMNP * 3) /\ pl_cd pl' = pl_cd pl.
Proof.
  induction ss as [|s r IH]; intros pl pl' l F N E; cbn [all_node_words] in E; [injection E as <- <-; auto|]. rewrite (u64_id _ F) in E.
  destruct (read_at _ _ _) as [[pl1 [d|]]| |] eqn:Er; cbn [bind] in E; try discriminate. pose proof (read_at_len _ _ _ _ _ Er) as Ld. destruct (read_at_keeps _ _ _ _ _ N Er) as (Cd & Ke).
  destruct (all_node_words pl1 k r) as [[pl2 [l2|]]| |] eqn:Ea; cbn [bind] in E; try discriminate. injection E as <- <-.
  assert (F1 : few_nodes pl1) by (unfold few_nodes; rewrite Cd; exact F). assert (N1 : pl_err pl1 = None) by (destruct (pl_err pl1) eqn:Q; [discriminate (Ke ltac:(discriminate))|reflexivity]). destruct (IH _ _ _ F1 N1 Ea) as (Ll & Cl).
  rewrite app_length, Ld, Ll, Cd, Cl. cbn [length]. split; [lia|exact Cd].
Qed.
Lemma read_all_node_data_room h pl k h' pl' l p : few_nodes pl -> read_all_node_data_mem h pl k = OK (h', pl', Some (l, p)) -> room h' p (length l).
Proof.
  intros F. unfold read_all_node_data_mem. change (pl_cd (clear pl)) with (pl_cd pl). change (pl_states (clear pl)) with (pl_states pl).
  assert (Q : Z.to_nat (pl_cd pl NUMNP * Z.of_nat (length (pl_states pl)) * 3) = length (pl_states pl) * Z.to_nat (pl_cd pl NUMNP * 3)).
  { unfold few_nodes in F. rewrite <- (Nat2Z.id (length (pl_states pl))) at 2. rewrite <- Z2Nat.inj_mul by lia. f_equal. lia. }
  mcase. rewrite block_length in M. destruct (all_node_words _ _ _) as [[pl1 [l1|]]| |] eqn:Ea; cbn [bind]; try discriminate; [|destruct (h_free _ _); discriminate].
  destruct (all_node_words_len _ _ (clear pl) _ _ F eq_refl Ea) as (Ll & _). change (pl_cd (clear pl)) with (pl_cd pl) in Ll. destruct (d_ws (pl_buf pl1) =? 4)%Z.
  - mcase. rewrite block_length in M0. destruct (h_free _ _) as [h3| |] eqn:Ef; cbn [bind]; try discriminate. intros E. injection E as <- <- <- <-. rewrite map_length, Ll, <- Q.
    apply (room_free _ _ _ _ _ Ef); [|exact M0]. pose proof (room_lt _ _ _ M). lia.
  - intros E. injection E as <- <- <- <-. rewrite map_length, Ll, <- Q. exact M.
Qed.

(** ** Parts *)
Lemma realloc_room h p n h' q : h_realloc h p n = OK (h', q) -> (forall x, p = Some x -> fst x < length h) ->
  room h' q (Z.to_nat n) /\ fst q = length h /\ length h' = S (length h) /\ forall r k, (forall x, p = Some x -> fst r <> fst x) -> room h r k -> room h' r k.
Proof.
  unfold h_realloc. mcase. rewrite block_length in M. destruct (h_free_opt h0 p) as [h2| |] eqn:F; cbn [bind]; try discriminate. intros E Lt. injection E as <- <-.
  destruct p as [x|]; cbn [h_free_opt] in F; [|injection F as <-; auto]. specialize (Lt x eq_refl). destruct (free_at _ _ _ F) as (Ln & _).
  split; [apply (room_free _ _ _ _ _ F); [lia|exact M]|]. split; [exact Em|]. split; [lia|]. intros r k Ne R. apply (room_free _ _ _ _ _ F); [exact (Ne x eq_refl)|apply L, R].
Qed.
(** An array under construction: [num] elements, made after the heap had [n0] blocks. *)
Definition grown (n0 : nat) (h : heap) (p : option ptr) (num : nat) : Prop := match p with Some x => room h x num /\ n0 <= fst x | None => num = 0 end.
Lemma grown_lt n0 h p num : grown n0 h p num -> forall x, p = Some x -> fst x < length h.
Proof. intros G x ->. destruct G as (R & _). eapply room_lt, R. Qed.
Lemma grown_keep n0 h h' p num : (forall r k, p = Some r -> room h r k -> room h' r k) -> grown n0 h p num -> grown n0 h' p num.
Proof. intros K G. destruct p as [x|]; [|exact G]. destruct G as (R & L). split; [apply K; auto|exact L]. Qed.
Definition apart (p q : option ptr) : Prop := forall x y, p = Some x -> q = Some y -> fst x <> fst y.
Lemma pick_room part_index ids mats : forall i num h n0 pids pinds h' a p c q, pick_mem h part_index ids mats i (Z.of_nat num) pids pinds = OK (h', (a, p), (c, q)) ->
  n0 <= length h -> grown n0 h pids num -> grown n0 h pinds num -> apart pids pinds ->
  grown n0 h' p (num + length a) /\ grown n0 h' q (num + length c) /\ forall r k, fst r < n0 -> room h r k -> room h' r k.
Proof.
  induction mats as [|m r IH]; intros i num h n0 pids pinds h' a p c q E N0 Gp Gq Ap; cbn [pick_mem] in E.
  - injection E as <- <- <- <- <-. cbn [length]. rewrite Nat.add_0_r. auto.
  - destruct (m =? part_index)%Z; [|eapply IH; eassumption].
    destruct (h_realloc h pids _) as [[h1 p1]| |] eqn:E1; cbn [bind] in E; try discriminate. destruct (h_realloc h1 pinds _) as [[h2 p2]| |] eqn:E2; cbn [bind] in E; try discriminate.
    destruct (aget ids i) as [id| |]; cbn [bind] in E; try discriminate.
    destruct (pick_mem h2 part_index ids r (S i) _ _ _) as [[[h3 [a3 p3]] [c3 q3]]| |] eqn:E3; cbn [bind] in E; try discriminate. injection E as <- <- <- <- <-.
    destruct (realloc_room _ _ _ _ _ E1 (grown_lt _ _ _ _ Gp)) as (R1 & F1 & L1 & K1).
    assert (Gq1 : grown n0 h1 pinds num). { eapply grown_keep; [|exact Gq]. intros y k Q Ry. apply K1; [|exact Ry]. intros x Qx Eq. exact (Ap x y Qx Q (eq_sym Eq)). }
    destruct (realloc_room _ _ _ _ _ E2 (grown_lt _ _ _ _ Gq1)) as (R2 & F2 & L2 & K2).
    replace (Z.of_nat num + 1)%Z with (Z.of_nat (S num)) in * by lia. rewrite Nat2Z.id in R1, R2.
    assert (R1' : room h2 p1 (S num)). { apply K2; [|exact R1]. intros x Qx Eq. pose proof (grown_lt _ _ _ _ Gq _ Qx). lia. }
    destruct (IH (S i) (S num) h2 n0 (Some p1) (Some p2) _ _ _ _ _ E3) as (A & B & C); [lia|split; [exact R1'|lia]|split; [exact R2|lia]|intros x y Qx Qy; injection Qx as <-; injection Qy as <-; lia|].
    cbn [length]. rewrite !Nat.add_succ_r. split; [exact A|]. split; [exact B|]. intros x k Lx Rx. apply C; [exact Lx|]. apply K2; [|apply K1; [|exact Rx]].
    + intros y Qy Eq. pose proof Gq as Gq'. rewrite Qy in Gq'. destruct Gq' as (_ & Ly). lia.
    + intros y Qy Eq. pose proof Gp as Gp'. rewrite Qy in Gp'. destruct Gp' as (_ & Ly). lia.
Qed.
Definition exact_room {A} (h : heap) (p : option ptr) (l : list A) : Prop := match p with Some x => room h x (length l) | None => l = [] end.
Lemma add_elements_room {A} h pl id_func id_mem el_func el_mem (mat : A -> Z) part_index h' pl' a p c q :
  counts_ok pl -> reader_ok id_func id_mem -> reader_ok el_func el_mem ->
  add_elements_mem h pl id_mem el_mem mat part_index = OK (h', pl', (a, p), (c, q)) -> exact_room h' p a /\ exact_room h' q c.
Proof.
  intros C Ri Re. unfold add_elements_mem. destruct (Ri pl C) as (Ki & Ai). specialize (Ai h).
  destruct (id_func pl) as [[pl1 ids]| |] eqn:Ei; destruct (id_mem h pl) as [[[h1 pl1'] [ids' pids]]| |]; cbn in Ai; try contradiction; cbn [bind]; try discriminate.
  destruct Ai as (-> & -> & _ & L1). destruct (pl_err pl1); [intros E; injection E as <- _ <- <- <- <-; cbn; auto|].
  destruct ids as [|id0 ids0]; [intros E; injection E as <- _ <- <- <- <-; cbn; auto|]. set (ids := id0 :: ids0). clearbody ids.
  assert (C1 : counts_ok pl1) by (eapply counts_keep; [apply (Ki _ _ eq_refl)|exact C]). destruct (Re pl1 C1) as (_ & Ae). specialize (Ae h1).
  destruct (el_func pl1) as [[pl2 els]| |] eqn:Ee; destruct (el_mem h1 pl1) as [[[h2 pl2'] [els' pels]]| |]; cbn in Ae; try contradiction; cbn [bind]; try discriminate.
  destruct Ae as (-> & -> & _ & L2). destruct (pl_err pl2).
  - cbn [bind]. destruct (h_free_opt h2 pids); cbn [bind]; try discriminate. destruct (h_free_opt _ pels); cbn [bind]; try discriminate. intros E. injection E as <- _ <- <- <- <-. cbn. auto.
  - destruct (pick_mem h2 part_index ids (map mat els) 0 0 None None) as [[[h3 [a3 p3]] [c3 q3]]| |] eqn:Ep; cbn [bind]; try discriminate.
    destruct (h_free_opt h3 pids) as [h4| |] eqn:F4; cbn [bind]; try discriminate. destruct (h_free_opt h4 pels) as [h5| |] eqn:F5; cbn [bind]; try discriminate.
    intros E. injection E as <- _ <- <- <- <-.
    destruct (pick_room part_index ids (map mat els) 0 0 h2 (length h2) None None _ _ _ _ _ Ep (Nat.le_refl _) eq_refl eq_refl) as (G1 & G2 & _); [intros x y Q; discriminate|].
    pose proof (leaves_trans _ _ _ _ _ L1 L2) as L. assert (Old : forall x, In (Some x) [pels; pids] -> fst x < length h2).
    { intros x I. destruct L as (_ & B & Cc & _). assert (Ib : In (fst x) (blocks ([pels] ++ [pids]))).
      { clear - I. cbn [In app] in *. destruct I as [->|[->|[]]]; [left; reflexivity|]. destruct pels; cbn; auto. }
      apply alive_len, B; [apply Cc, Ib|exact Ib]. }
    assert (K : forall y k, length h2 <= fst y -> room h3 y k -> room h5 y k).
    { intros y k Ly R. apply (room_free_opt _ _ _ _ _ F5); [intros ->; pose proof (Old y ltac:(cbn; auto)); lia|intros x ->; pose proof (Old x ltac:(cbn; auto)); lia|].
      apply (room_free_opt _ _ _ _ _ F4); [intros ->; pose proof (Old y ltac:(cbn; auto)); lia|intros x ->; pose proof (Old x ltac:(cbn; auto)); lia|exact R]. }
    cbn [Nat.add] in G1, G2. split.
    + destruct p3 as [x|]; cbn in G1 |- *; [apply K; apply G1|]. destruct a3; [reflexivity|discriminate].
    + destruct q3 as [x|]; cbn in G2 |- *; [apply K; apply G2|]. destruct c3; [reflexivity|discriminate].
Qed.
Lemma exact_keep {A} h h' ps p (l : list A) : leaves h h' ps -> exact_room h p l -> exact_room h' p l.
Proof. intros L. destruct p as [p|]; [apply (room_leaves _ _ _ _ _ L)|auto]. Qed.
Lemma add_elements_step {A} h pl id_func id_mem el_func el_mem (mat : A -> Z) part_index h' pl' a p c q :
  counts_ok pl -> reader_ok id_func id_mem -> reader_ok el_func el_mem ->
  add_elements_mem h pl id_mem el_mem mat part_index = OK (h', pl', (a, p), (c, q)) ->
  exact_room h' p a /\ exact_room h' q c /\ counts_ok pl' /\ leaves h h' [p; q].
Proof.
  intros C Ri Re E. destruct (add_elements_room _ _ _ _ _ _ _ _ _ _ _ _ _ _ C Ri Re E) as (X & Y). split; [exact X|]. split; [exact Y|].
  destruct (add_elements_mem_ok h pl _ _ _ _ mat part_index C Ri Re) as (K & Al). rewrite E in Al.
  destruct (add_elements_to_part pl id_func el_func mat part_index) as [[e [l0 c0]]| |] eqn:Ev; cbn in Al; try contradiction. destruct Al as (-> & _ & _ & L & _).
  split; [exact (counts_keep _ _ (K _ _ eq_refl) C)|exact L].
Qed.
Lemma read_part_room h pl part_index h' pl' p ps : counts_ok pl -> read_part_mem h pl part_index = OK (h', pl', p, ps) ->
  Forall2 (fun q n => match q with Some q => room h' q n | None => n = 0 end) ps (sizes p).
Proof.
  intros C. assert (C0 : counts_ok (clear pl)) by exact C. unfold read_part_mem. cbn zeta.
  destruct (add_elements_mem h _ _ _ _ _) as [[[[h1 e1] [a1 p1]] [c1 q1]]| |] eqn:E1; cbn [bind]; try discriminate.
  destruct (add_elements_step _ _ _ _ _ _ _ _ _ _ _ _ _ _ C0 solid_ids_reader solids_reader E1) as (X1 & Y1 & C1 & L1).
  destruct (add_elements_mem h1 _ _ _ _ _) as [[[[h2 e2] [a2 p2]] [c2 q2]]| |] eqn:E2; cbn [bind]; try discriminate.
  destruct (add_elements_step _ _ _ _ _ _ _ _ _ _ _ _ _ _ C1 thick_shell_ids_reader thick_shells_reader E2) as (X2 & Y2 & C2 & L2).
  destruct (add_elements_mem h2 _ _ _ _ _) as [[[[h3 e3] [a3 p3]] [c3 q3]]| |] eqn:E3; cbn [bind]; try discriminate.
  destruct (add_elements_step _ _ _ _ _ _ _ _ _ _ _ _ _ _ C2 beam_ids_reader beams_reader E3) as (X3 & Y3 & C3 & L3).
  destruct (add_elements_mem h3 _ _ _ _ _) as [[[[h4 e4] [a4 p4]] [c4 q4]]| |] eqn:E4; cbn [bind]; try discriminate.
  destruct (add_elements_step _ _ _ _ _ _ _ _ _ _ _ _ _ _ C3 shell_ids_reader shells_reader E4) as (X4 & Y4 & C4 & L4).
  apply (exact_keep _ _ _ _ _ L2) in X1, Y1. apply (exact_keep _ _ _ _ _ L3) in X1, Y1, X2, Y2. apply (exact_keep _ _ _ _ _ L4) in X1, Y1, X2, Y2, X3, Y3.
  match goal with |- match _ with [] => match _ with [] => match _ with [] => match _ with [] => OK (_, _, ?pp, ?pps) | _ => _ end | _ => _ end | _ => _ end | _ => _ end = _ -> _ => set (part0 := pp); set (ps0 := pps) end.
  assert (G : Forall2 (fun q n => match q with Some q => room h4 q n | None => n = 0 end) ps0 (sizes part0)).
  { unfold ps0, part0, sizes. cbn [p_solid_ids p_thick_shell_ids p_beam_ids p_shell_ids p_solid_indices p_thick_shell_indices p_beam_indices p_shell_indices].
    assert (N : forall A q (l : list A), exact_room h4 q l -> match q with Some q => room h4 q (length l) | None => length l = 0 end). { intros A q l X. destruct q; [exact X|]. cbn in X. rewrite X. reflexivity. }
    repeat (constructor; [apply N; assumption|]). constructor. }
  clearbody part0 ps0. intros E. assert (Q : h4 = h' /\ part0 = p /\ ps0 = ps) by (destruct a1, a2, a3, a4; injection E; auto). destruct Q as (<- & <- & <-). exact G.
Qed.
Lemma add_ids_room h pl all p reader mem h' pl' l q : counts_ok pl -> reader_ok reader mem ->
  match p with Some x => room h x (length (or_null all)) | None => all = None end ->
  add_ids_mem h pl all p mem = OK (h', pl', l, q) -> counts_ok pl' /\ match q with Some x => room h' x (length (or_null l)) | None => l = None end.
Proof.
  intros C R G. unfold add_ids_mem. destruct (R pl C) as (K & Ra). specialize (Ra h).
  destruct (reader pl) as [[e l0]| |], (mem h pl) as [[[h1 e'] [l' q0]]| |]; cbn in Ra; try contradiction; cbn [bind]; try discriminate. destruct Ra as (-> & -> & Nq & L1).
  destruct (K _ _ eq_refl) as (K1 & _). pose proof (counts_keep _ _ K1 C) as C1. destruct l0 as [|i0 l0].
  - intros E. injection E as <- <- <- <-. split; [exact C1|]. destruct p as [x|]; [apply (room_leaves _ _ _ _ _ L1), G|exact G].
  - destruct (insert_sorted all (i0 :: l0)) as [r| |]; cbn [bind]; try discriminate. destruct (h_realloc h1 p _) as [[h2 x]| |] eqn:E2; cbn [bind]; try discriminate.
    destruct (h_free_opt h2 q0) as [h3| |] eqn:E3; cbn [bind]; try discriminate. intros E. injection E as <- <- <- <-. split; [exact C1|]. cbn [or_null].
    destruct (realloc_room _ _ _ _ _ E2) as (Rm & Fx & _). { intros y ->. apply (room_leaves _ _ _ _ _ L1) in G. exact (room_lt _ _ _ G). }
    rewrite Nat2Z.id in Rm. assert (Lq : forall y, q0 = Some y -> fst y < length h1).
    { intros y ->. destruct L1 as (_ & B & Cc & _). cbn [blocks] in *. apply alive_len, B; [apply Cc|]; left; reflexivity. }
    apply (room_free_opt _ _ _ _ _ E3); [intros ->; specialize (Lq x eq_refl); lia|intros y ->; specialize (Lq y eq_refl); lia|exact Rm].
Qed.
Lemma read_all_element_ids_room h pl h' pl' l p : counts_ok pl -> read_all_element_ids_mem h pl = OK (h', pl', (l, Some p)) -> room h' p (length l).
Proof.
  intros C. unfold read_all_element_ids_mem.
  destruct (add_ids_mem h _ _ _ _) as [[[[h1 e1] l1] q1]| |] eqn:E1; cbn [bind]; try discriminate. destruct (add_ids_room h pl None None _ _ _ _ _ _ C solid_ids_reader eq_refl E1) as (C1 & G1).
  destruct (add_ids_mem h1 _ _ _ _) as [[[[h2 e2] l2] q2]| |] eqn:E2; cbn [bind]; try discriminate. destruct (add_ids_room _ _ _ _ _ _ _ _ _ _ C1 beam_ids_reader G1 E2) as (C2 & G2).
  destruct (add_ids_mem h2 _ _ _ _) as [[[[h3 e3] l3] q3]| |] eqn:E3; cbn [bind]; try discriminate. destruct (add_ids_room _ _ _ _ _ _ _ _ _ _ C2 shell_ids_reader G2 E3) as (C3 & G3).
  destruct (add_ids_mem h3 _ _ _ _) as [[[[h4 e4] l4] q4]| |] eqn:E4; cbn [bind]; try discriminate. destruct (add_ids_room _ _ _ _ _ _ _ _ _ _ C3 thick_shell_ids_reader G3 E4) as (C4 & G4).
  intros E. injection E as <- <- <- ->. exact G4.
Qed.
Lemma part_nodes_room h f pl p t node_ids h' pl' l q : counts_ok pl -> (forall x, node_ids = Some x -> fst x < length h) ->
  part_nodes_mem h f pl p t node_ids = OK (h', pl', l, q) -> room h' q (length l).
Proof.
  intros C Lt. unfold part_nodes_mem. cbn zeta. mcase. rewrite block_length, Nat2Z.id in M.
  set (cap := (length (p_solid_ids p) * 8 + length (p_beam_ids p) * 2 + length (p_shell_ids p) * 4 + length (p_thick_shell_ids p) * 8)) in *. clearbody cap.
  generalize {| n_cells := repeat None cap; n_num := 0 |}. intros st.
  pose proof (add_element_mem_ok h0 h0 [] f pl st (p_solid_ids p) (t_solid_ids t) (t_solid_cons t) _ _ _ _ c_nodes C (leaves_refl h0) solid_ids_reader solids_reader solid_paired) as R.
  match type of R with alike ?v ?m _ => destruct v as [[e1 s1]| |], m as [[[h2 ?] ?]| |]; cbn [bind alike] in R |- *; try contradiction; try discriminate end.
  destruct R as (-> & -> & C1 & l1 & L1 & _). apply (room_leaves _ _ _ _ _ L1) in M.
  pose proof (add_element_mem_ok h2 h2 [] f e1 s1 (p_beam_ids p) (t_beam_ids t) (t_beam_cons t) _ _ _ _ bc_nodes C1 (leaves_refl h2) beam_ids_reader beams_reader beam_paired) as R.
  match type of R with alike ?v ?m _ => destruct v as [[e2 s2]| |], m as [[[h3 ?] ?]| |]; cbn [bind alike] in R |- *; try contradiction; try discriminate end.
  destruct R as (-> & -> & C2 & l2 & L2 & _). apply (room_leaves _ _ _ _ _ L2) in M.
  pose proof (add_element_mem_ok h3 h3 [] f e2 s2 (p_shell_ids p) (t_shell_ids t) (t_shell_cons t) _ _ _ _ c_nodes C2 (leaves_refl h3) shell_ids_reader shells_reader shell_paired) as R.
  match type of R with alike ?v ?m _ => destruct v as [[e3 s3]| |], m as [[[h4 ?] ?]| |]; cbn [bind alike] in R |- *; try contradiction; try discriminate end.
  destruct R as (-> & -> & C3 & l3 & L3 & _). apply (room_leaves _ _ _ _ _ L3) in M.
  pose proof (add_element_mem_ok h4 h4 [] f e3 s3 (p_thick_shell_ids p) (t_thick_shell_ids t) (t_thick_shell_cons t) _ _ _ _ c_nodes C3 (leaves_refl h4) thick_shell_ids_reader thick_shells_reader thick_shell_paired) as R.
  match type of R with alike ?v ?m _ => destruct v as [[e4 s4]| |], m as [[[h5 ?] ?]| |]; cbn [bind alike] in R |- *; try contradiction; try discriminate end.
  destruct R as (-> & -> & C4 & l4 & L4 & _). apply (room_leaves _ _ _ _ _ L4) in M.
  destruct (h_free_opt h5 node_ids) as [h6| |] eqn:F6; cbn [bind]; try discriminate.
  assert (M6 : room h6 q0 cap) by (apply (room_free_opt _ _ _ _ _ F6); [intros ->; specialize (Lt q0 eq_refl); lia|intros x ->; specialize (Lt x eq_refl); lia|exact M]).
  destruct (cap =? n_num s4) eqn:Ec.
  - apply Nat.eqb_eq in Ec. cbn [bind]. destruct (build _ _ _) as [l0| |] eqn:Eb; cbn [bind]; try discriminate. intros E. injection E as <- <- <- <-. apply build_len in Eb. rewrite Eb, <- Ec. exact M6.
  - destruct (h_realloc h6 (Some q0) _) as [[h7 q7]| |] eqn:E7; cbn [bind]; try discriminate. destruct (build _ _ _) as [l0| |] eqn:Eb; cbn [bind]; try discriminate.
    intros E. injection E as <- <- <- <-. apply build_len in Eb. rewrite Eb. destruct (realloc_room _ _ _ _ _ E7) as (Rm & _); [intros x Q; injection Q as <-; exact (room_lt _ _ _ M6)|]. rewrite Nat2Z.id in Rm. exact Rm.
Qed.
Lemma part_get_node_ids2_room h pl p node_ids t h' pl' l q : counts_ok pl -> part_get_node_ids2_mem h pl p node_ids t = OK (h', pl', Some (l, q)) -> room h' q (length l).
Proof.
  intros C. assert (C0 : counts_ok (clear pl)) by exact C. unfold part_get_node_ids2_mem. cbn zeta. destruct node_ids as [ids|].
  - cbn [bind]. change (pl_err (clear pl)) with (@None perr). cbv iota. destruct (part_nodes_mem _ _ _ _ _ _) as [[[[h1 e1] l1] q1]| |] eqn:E; cbn [bind]; try discriminate. intros Q. injection Q as <- <- <- <-.
    eapply part_nodes_room; [exact C0| |exact E]. discriminate.
  - destruct (node_ids_reader (clear pl) C0) as (K & R). specialize (R h).
    destruct (read_node_ids (clear pl)) as [[e l0]| |], (read_node_ids_mem h (clear pl)) as [[[h1 e'] [l' q0]]| |]; cbn in R; try contradiction; cbn [bind]; try discriminate.
    destruct R as (-> & -> & N & L). destruct (K _ _ eq_refl) as (K1 & K2). destruct (pl_err e); [discriminate|].
    destruct (part_nodes_mem _ _ _ _ _ _) as [[[[h2 e2] l2] q2]| |] eqn:E; cbn [bind]; try discriminate. intros Q. injection Q as <- <- <- <-.
    eapply part_nodes_room; [exact (counts_keep _ _ K1 C0)| |exact E]. intros x ->. destruct L as (_ & B & Cc & _). cbn [blocks] in *. apply alive_len, B; [apply Cc|]; left; reflexivity.
Qed.
