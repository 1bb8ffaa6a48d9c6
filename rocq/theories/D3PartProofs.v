(** * Proofs about parts *)
From Coq Require Import Sorting.Permutation Sorting.Sorted.
From Verif Require Import CBase CBaseFacts SearchModel SearchSpec SearchProofs BinModel D3BufModel D3BufSpec D3BufProofs D3Model D3Spec D3CurProofs D3OpenProofs D3SectProofs D3StateProofs D3ReadModel D3ReadSpec D3ReadProofs D3LayerProofs D3PartModel D3PartSpec.
Open Scope Z_scope.

(** ** Nodes: the sorted array *)
Lemma bsearch_insert_fuel_ext fuel : forall cmp cmp' lo hi, (lo <= hi)%nat -> (forall i, (lo <= i <= hi)%nat -> cmp i = cmp' i) -> bsearch_insert_fuel fuel cmp lo hi = bsearch_insert_fuel fuel cmp' lo hi.
Proof.
  induction fuel as [|fuel IH]; intros cmp cmp' lo hi L E; [reflexivity|]. cbn [bsearch_insert_fuel]. destruct (Nat.eqb_spec lo hi) as [Q|Q]; [rewrite E by lia; reflexivity|].
  assert (D : (lo <= lo + (hi - lo) / 2 < hi)%nat) by (pose proof (Nat.div_lt (hi - lo) 2 ltac:(lia) ltac:(lia)); lia).
  rewrite (E (lo + (hi - lo) / 2)%nat) by lia. destruct (cmp' (lo + (hi - lo) / 2)%nat) as [v| |]; cbn [bind]; [|reflexivity|reflexivity].
  rewrite (IH cmp cmp' lo (lo + (hi - lo) / 2)%nat) by (try lia; intros; apply E; lia). rewrite (IH cmp cmp' hi hi) by (try lia; intros; apply E; lia).
  rewrite (IH cmp cmp' (lo + (hi - lo) / 2)%nat hi) by (try lia; intros; apply E; lia). reflexivity.
Qed.
Definition cells_of (cap : nat) (l : list Z) : list (option Z) := map Some l ++ repeat None (cap - length l).
Lemma cells_length cap l : (length l <= cap)%nat -> length (cells_of cap l) = cap.
Proof. intros L. unfold cells_of. rewrite app_length, map_length, repeat_length. lia. Qed.
Lemma cell_of cap l i v : nth_error l i = Some v -> cell (cells_of cap l) i = OK v.
Proof.
  intros N. unfold cell, aget, cells_of. assert (i < length l)%nat by (apply nth_error_Some; congruence).
  rewrite nth_error_app1 by (rewrite map_length; lia). rewrite nth_error_map, N. reflexivity.
Qed.
Lemma aset_mid {A} (a : list A) x c v : aset (a ++ x :: c) (length a) v = OK (a ++ v :: c).
Proof. induction a as [|y a IH]; [reflexivity|]. cbn [app length aset]. rewrite IH. reflexivity. Qed.
(** Shifting the cells [c] behind [a] one to the right. *)
Lemma shift_ok a : forall c rest x, shift_right (map Some (a ++ c) ++ x :: rest) (length a) (length a + length c) = OK (map Some a ++ match c with [] => x | y :: _ => Some y end :: map Some c ++ rest).
Proof.
  induction c as [|z c IH] using rev_ind; intros rest x.
  - rewrite app_nil_r, Nat.add_0_r. cbn [map app]. destruct (length a) as [|n] eqn:E; [reflexivity|]. cbn [shift_right]. replace (S n <? S n)%nat with false by (symmetry; apply Nat.ltb_ge; lia). reflexivity.
  - rewrite app_length. cbn [length]. replace (length a + (length c + 1))%nat with (S (length a + length c)) by lia. cbn [shift_right].
    replace (length a <? S (length a + length c))%nat with true by (symmetry; apply Nat.ltb_lt; lia).
    assert (C : cell (map Some (a ++ c ++ [z]) ++ x :: rest) (length a + length c) = OK z).
    { unfold cell, aget. rewrite nth_error_app1 by (rewrite map_length, !app_length; cbn [length]; lia). rewrite nth_error_map, app_assoc, nth_error_app2 by (rewrite app_length; lia).
      rewrite app_length, Nat.sub_diag. reflexivity. }
    rewrite C. cbn [bind]. rewrite app_assoc, map_app.
    assert (St : aset ((map Some (a ++ c) ++ map Some [z]) ++ x :: rest) (S (length a + length c)) (Some z) = OK ((map Some (a ++ c) ++ map Some [z]) ++ Some z :: rest)).
    { pose proof (aset_mid (map Some (a ++ c) ++ map Some [z]) x rest (Some z)) as Q. rewrite app_length, !map_length, app_length in Q. cbn [length] in Q.
      replace (length a + length c + 1)%nat with (S (length a + length c)) in Q by lia. exact Q. }
    rewrite St. cbn [bind]. rewrite <- app_assoc. change (map Some [z] ++ Some z :: rest) with (Some z :: (Some z :: rest)). rewrite IH. f_equal.
    rewrite map_app, <- app_assoc. destruct c; reflexivity.
Qed.
Lemma build_cells cap l : (length l <= cap)%nat -> build (cell (cells_of cap l)) (length l) 0 = OK l.
Proof.
  intros L. assert (G : forall m i, (i + m = length l)%nat -> build (cell (cells_of cap l)) m i = OK (skipn i l)).
  { induction m as [|m IH]; intros i E.
    - replace i with (length l) by lia. rewrite skipn_all. reflexivity.
    - cbn [build]. destruct (nth_error l i) as [v|] eqn:N; [|apply nth_error_None in N; lia]. rewrite (cell_of cap l i v N). cbn [bind]. rewrite IH by lia. cbn [bind].
      f_equal. clear -N. revert i N. induction l as [|x l IH]; intros i N; destruct i; cbn in *; try discriminate; [injection N as ->; reflexivity|apply IH; exact N]. }
  apply (G (length l) 0%nat). lia.
Qed.
(** The state of the array: it holds [l]. *)
Definition holds (cap : nat) (st : narr) (l : list Z) : Prop := st = {| n_cells := cells_of cap l; n_num := length l |} /\ (length l <= cap)%nat /\ words_strict l.
Lemma push_node_ok cap st l id : holds cap st l -> (length l < cap)%nat -> exists st' l', push_node st id = OK st' /\ holds cap st' l' /\ (forall x, In x l' <-> In x l \/ x = id) /\ (length l' <= S (length l))%nat.
Proof.
  intros (-> & L & S) R. unfold push_node. cbn [n_num n_cells]. destruct l as [|x0 l0].
  - cbn [length]. exists {| n_cells := cells_of cap [id]; n_num := 1 |}, [id]. unfold cells_of. cbn [length map app]. rewrite Nat.sub_0_r. destruct cap as [|cap]; [cbn in R; lia|]. cbn [repeat aset bind].
    split; [f_equal; f_equal; f_equal; f_equal; cbn; lia|]. split; [split; [unfold cells_of; cbn [length map app]; reflexivity|]; split; [cbn; lia|repeat constructor]|].
    split; [intros x; cbn; intuition congruence|cbn; lia].
  - remember (x0 :: l0) as l eqn:El. assert (El' : length l = Datatypes.S (length l0)) by (rewrite El; reflexivity). rewrite El'. cbn match.
    assert (Ne : l <> []) by (rewrite El; discriminate). destruct (word_insert_strict l id Ne S) as (p & f & Q & F1 & F2 & F3).
    unfold d3_word_binary_search_insert, bsearch_insert in Q. replace (length l - 1)%nat with (length l0) in Q by lia. unfold bsearch_insert.
    rewrite (bsearch_insert_fuel_ext _ _ (fun i => do x <- aget l i; OK (d3_word_cmp id x)) 0 (length l0)); [|lia|].
    2:{ intros i I. destruct (nth_error l i) as [v|] eqn:N; [|apply nth_error_None in N; lia]. rewrite (cell_of cap l i v N). unfold aget. rewrite N. reflexivity. }
    rewrite Q. cbn [bind]. destruct f.
    + eexists _, l. split; [reflexivity|]. split; [split; [rewrite El'; reflexivity|split; [exact L|exact S]]|]. split; [|lia]. intros x. destruct F1 as [F1 _]. specialize (F1 eq_refl). intuition congruence.
    + destruct (F3 eq_refl) as (P & S'). assert (Ecap : exists rest, repeat (@None Z) (cap - length l) = None :: rest /\ rest = repeat None (cap - Datatypes.S (length l))).
      { exists (repeat None (cap - Datatypes.S (length l))). split; [|reflexivity]. replace (cap - length l)%nat with (Datatypes.S (cap - Datatypes.S (length l))) by lia. reflexivity. }
      destruct Ecap as (rest & Er & Erest).
      assert (Ea : length (firstn p l) = p) by (rewrite firstn_length; lia).
      assert (Ec : (p + length (skipn p l) = Datatypes.S (length l0))%nat) by (rewrite skipn_length; lia).
      pose proof (shift_ok (firstn p l) (skipn p l) rest None) as Sh. rewrite firstn_skipn, Ea, Ec in Sh.
      unfold cells_of at 1. rewrite Er, Sh. cbn [bind].
      pose proof (aset_mid (map Some (firstn p l)) (match skipn p l with [] => None | y :: _ => Some y end) (map Some (skipn p l) ++ rest) (Some id)) as As. rewrite map_length, Ea in As. rewrite As. cbn [bind].
      set (l' := firstn p l ++ id :: skipn p l) in *. assert (Ll : length l' = Datatypes.S (length l)) by (unfold l'; rewrite app_length; cbn [length]; lia).
      exists {| n_cells := cells_of cap l'; n_num := length l' |}, l'. split.
      * f_equal. f_equal; [|lia]. unfold cells_of, l'. rewrite map_app, <- app_assoc. cbn [map app]. do 3 f_equal. rewrite Erest. f_equal. fold l'. lia.
      * split; [split; [reflexivity|split; [lia|exact S']]|]. split; [|lia]. intros x. unfold l'. rewrite in_app_iff. cbn [In]. rewrite <- (firstn_skipn p l) at 3. rewrite in_app_iff. intuition congruence.
Qed.
Lemma push_nodes_ok cap f : forall ns st l, holds cap st l -> (length l + length ns <= cap)%nat -> (forall n, In n ns -> exists v, f n = OK v) ->
  exists st' l', push_nodes f st ns = OK st' /\ holds cap st' l' /\ (forall x, In x l' <-> In x l \/ exists n, In n ns /\ f n = OK x) /\ (length l' <= length l + length ns)%nat.
Proof.
  induction ns as [|n ns IH]; intros st l H R F.
  - exists st, l. split; [reflexivity|]. split; [exact H|]. split; [|cbn; lia]. intros x. split; [auto|]. intros [X|(n & [] & _)]; exact X.
  - cbn [push_nodes]. destruct (F n (or_introl eq_refl)) as (v & Fv). rewrite Fv. cbn [bind]. cbn [length] in R.
    destruct (push_node_ok cap st l v H ltac:(lia)) as (st1 & l1 & -> & H1 & I1 & L1). cbn [bind].
    destruct (IH st1 l1 H1 ltac:(lia) (fun m M => F m (or_intror M))) as (st2 & l2 & Q & H2 & I2 & L2). exists st2, l2. split; [exact Q|]. split; [exact H2|]. split; [|cbn [length]; lia].
    intros x. rewrite I2, I1. split.
    + intros [[X|X]|(m & M & Fm)]; [auto|right; exists n; split; [left; reflexivity|congruence]|right; exists m; split; [right; exact M|exact Fm]].
    + intros [X|(m & [M|M] & Fm)]; [auto|left; right; congruence|right; exists m; auto].
Qed.
(** Every element of the part is found in the id table; [w] nodes per element. *)
Lemma push_elements_ok cap f ids cns w : words_strict ids -> length cns = length ids -> (forall ns, In ns cns -> length ns = w) ->
  forall pids st l, holds cap st l -> (length l + length pids * w <= cap)%nat ->
  (forall id, In id pids -> exists i ns, nth_error ids i = Some id /\ nth_error cns i = Some ns /\ forall n, In n ns -> exists v, f n = OK v) ->
  exists st' l', push_elements f st pids ids (length ids) cns = OK st' /\ holds cap st' l' /\
    (forall x, In x l' <-> In x l \/ exists id i ns n, In id pids /\ nth_error ids i = Some id /\ nth_error cns i = Some ns /\ In n ns /\ f n = OK x) /\ (length l' <= length l + length pids * w)%nat.
Proof.
  intros Ss Lc W. induction pids as [|id pids IH]; intros st l H R F.
  - exists st, l. split; [reflexivity|]. split; [exact H|]. split; [|cbn; lia]. intros x. split; [auto|]. intros [X|(id & i & ns & n & [] & _)]; exact X.
  - cbn [push_elements]. destruct (F id (or_introl eq_refl)) as (i & ns & Ni & Nc & Fn). assert (i < length ids)%nat by (apply nth_error_Some; congruence).
    destruct (length ids) as [|last] eqn:El; [lia|]. assert (Ne : ids <> []) by (destruct ids; [discriminate|discriminate]).
    destruct (word_search_iff ids id i Ne Ss) as ((_ & Q) & _). replace (length ids - 1)%nat with last in Q by lia. rewrite (Q Ni). cbn [bind]. unfold aget. rewrite Nc. cbn [bind].
    assert (Ln : length ns = w) by (apply W; eapply nth_error_In; exact Nc). cbn [length] in R.
    destruct (push_nodes_ok cap f ns st l H ltac:(nia) Fn) as (st1 & l1 & -> & H1 & I1 & L1). cbn [bind].
    destruct (IH st1 l1 H1 ltac:(nia) (fun m M => F m (or_intror M))) as (st2 & l2 & Q2 & H2 & I2 & L2). exists st2, l2. split; [exact Q2|]. split; [exact H2|]. split; [|cbn [length]; nia].
    intros x. rewrite I2, I1. split.
    + intros [[X|(n & N & Fx)]|(id' & i' & ns' & n & P & N1 & N2 & N3 & N4)]; [auto|right; exists id, i, ns, n; split; [left; reflexivity|auto]|right; exists id', i', ns', n; split; [right; exact P|auto]].
    + intros [X|(id' & i' & ns' & n & [<-|P] & N1 & N2 & N3 & N4)]; [auto| |right; exists id', i', ns', n; auto].
      left. right. assert (i' = i) by (apply (words_strict_nth_inj ids i' i id Ss); assumption). subst i'. assert (ns' = ns) by congruence. subst ns'. exists n. auto.
Qed.

(** ** Picking the elements of a part *)
Lemma filter_map {A B} (p : B -> bool) (f : A -> B) l : filter p (map f l) = map f (filter (fun x => p (f x)) l).
Proof. induction l as [|x l IH]; [reflexivity|]. cbn [map filter]. rewrite IH. destruct (p (f x)); reflexivity. Qed.
Lemma pick_ok k ids g h : forall m i, (forall j, (i <= j < i + m)%nat -> aget ids j = OK (h j)) ->
  pick k ids (map g (seq i m)) i = OK (map h (filter (fun j => g j =? k) (seq i m)), filter (fun j => g j =? k) (seq i m)).
Proof.
  induction m as [|m IH]; intros i H; [reflexivity|]. cbn [seq map pick filter]. rewrite (IH (S i)) by (intros; apply H; lia).
  destruct (g i =? k); cbn [map]; [|reflexivity]. rewrite H by lia. reflexivity.
Qed.

Section Parts.
Context (b : dbuf) (titles : Z) (states : list Z).
Definition picked (t : etable) (k : Z) : list Z * list nat := (member_ids b t k, map Z.to_nat (members b t k)).
Lemma zero_based_eq (Su : supported b) k i : part_index_ok b k -> (zero_based (d_ws b) (wd b i) =? k) = (wd b i =? k + 1).
Proof.
  intros (K & Ne). pose proof (wd_bound b (su_sound b Su) (su_bytes b Su) i) as B. unfold zero_based. destruct (Z.eqb_spec (wd b i) 0) as [E|E]; lia.
Qed.
Lemma members_seq t k : members b t k = map Z.of_nat (filter (fun j => in_part b t k (Z.of_nat j)) (seq 0 (Z.to_nat (e_num t)))).
Proof. unfold members, each. apply filter_map. Qed.
Lemma add_part_ok {A} (t : etable) (id_func : plot -> res (plot * list Z)) (el_func : plot -> res (plot * list A)) (mat : A -> Z) (g : Z -> A) pl k :
  supported b -> part_index_ok b k ->
  id_func pl = OK (clear pl, id_table b t) -> el_func (clear pl) = OK (clear pl, each (e_num t) g) ->
  (forall i, mat (g i) = zero_based (d_ws b) (wd b (e_pos t + i * e_width t + e_width t - 1))) ->
  add_elements_to_part pl id_func el_func mat k = OK (clear pl, picked t k).
Proof.
  intros Su K Qi Qe M. unfold add_elements_to_part. rewrite Qi. cbn [bind]. change (pl_err (clear pl)) with (@None perr). cbn match. unfold picked, member_ids. rewrite members_seq.
  pose proof (stretch_length b (e_ids t) (e_num t)) as L. fold (id_table b t) in L.
  destruct (id_table b t) as [|x r] eqn:E; [cbn in L; rewrite <- L; reflexivity|]. rewrite <- E in *. clear E x r. rewrite Qe. cbn [bind]. change (pl_err (clear pl)) with (@None perr). cbn match.
  unfold each. rewrite map_map.
  erewrite (pick_ok k (id_table b t) (fun j => mat (g (Z.of_nat j))) (fun j => element_id b t (Z.of_nat j))).
  2:{ intros j J. unfold id_table. rewrite aget_stretch by lia. reflexivity. }
  cbn [bind]. assert (Ef : forall l, filter (fun j => mat (g (Z.of_nat j)) =? k) l = filter (fun j => in_part b t k (Z.of_nat j)) l).
  { intros l. apply filter_ext. intros j. rewrite M. apply zero_based_eq; assumption. }
  rewrite Ef, map_map, map_map. do 3 f_equal. rewrite <- (map_id (filter _ _)) at 1. apply map_ext. intros j. rewrite Nat2Z.id. reflexivity.
Qed.
Lemma read_part_ok pl k : opened b titles states pl -> has_ids b = true -> part_index_ok b k ->
  read_part pl k = OK (match p_solid_ids (part_of b k), p_thick_shell_ids (part_of b k), p_beam_ids (part_of b k), p_shell_ids (part_of b k) with [], [], [], [] => with_err pl (Some P_part) | _, _, _, _ => clear pl end, part_of b k).
Proof.
  intros O Hi K. pose proof (opened_view _ _ _ _ O) as V. pose proof (view_err _ _ _ _ V None) as Vc. fold (clear pl) in Vc. assert (Su : supported b) by apply O. unfold read_part. cbv zeta.
  rewrite (add_part_ok (solids b) read_solid_element_ids read_solid_elements c_mat (con_spec b (g_el8 b) 8) (clear pl) k Su K (solid_ids_ok b titles states _ Vc Hi) (solids_con_ok b titles states _ Vc)).
  2:{ intros i. cbn [con_spec c_mat solids e_pos e_width]. f_equal. f_equal. lia. }
  cbn [bind]. unfold picked at 1. change (clear (clear pl)) with (clear pl).
  rewrite (add_part_ok (thick_shells b) read_thick_shell_element_ids read_thick_shell_elements c_mat (con_spec b (g_elt b) 8) (clear pl) k Su K (thick_shell_ids_ok b titles states _ Vc Hi) (thick_shells_con_ok b titles states _ Vc)).
  2:{ intros i. cbn [con_spec c_mat thick_shells e_pos e_width]. f_equal. f_equal. lia. }
  cbn [bind]. unfold picked at 1. change (clear (clear pl)) with (clear pl).
  rewrite (add_part_ok (beams b) read_beam_element_ids read_beam_elements bc_mat (beam_con_spec b (g_el2 b)) (clear pl) k Su K (beam_ids_ok b titles states _ Vc Hi) (beams_con_ok b titles states _ Vc)).
  2:{ intros i. cbn [beam_con_spec bc_mat beams e_pos e_width]. f_equal. f_equal. lia. }
  cbn [bind]. unfold picked at 1. change (clear (clear pl)) with (clear pl).
  rewrite (add_part_ok (shells b) read_shell_element_ids read_shell_elements c_mat (con_spec b (g_el4 b) 4) (clear pl) k Su K (shell_ids_ok b titles states _ Vc Hi) (shells_con_ok b titles states _ Vc)).
  2:{ intros i. cbn [con_spec c_mat shells e_pos e_width]. f_equal. f_equal. lia. }
  cbn [bind]. unfold picked at 1. change (clear (clear pl)) with (clear pl). fold (part_of b k).
  change (p_solid_ids (part_of b k)) with (member_ids b (solids b) k). change (p_thick_shell_ids (part_of b k)) with (member_ids b (thick_shells b) k).
  change (p_beam_ids (part_of b k)) with (member_ids b (beams b) k). change (p_shell_ids (part_of b k)) with (member_ids b (shells b) k).
  destruct (member_ids b (solids b) k); [destruct (member_ids b (thick_shells b) k); [destruct (member_ids b (beams b) k); [destruct (member_ids b (shells b) k)|]|]|]; reflexivity.
Qed.

(** ** Nodes of a part *)
(** The nodes [f] assigns to the elements of a table with an id in [pids]. *)
Definition node_via (f : Z -> res Z) (t : etable) (pids : list Z) (x : Z) : Prop :=
  exists i m, 0 <= i < e_num t /\ In (element_id b t i) pids /\ 0 <= m < e_nodes t /\ f (zero_based (d_ws b) (wd b (e_pos t + i * e_width t + m))) = OK x.
Definition known (f : Z -> res Z) (t : etable) (pids : list Z) : Prop :=
  forall id, In id pids -> exists i, 0 <= i < e_num t /\ element_id b t i = id /\ forall m, 0 <= m < e_nodes t -> exists v, f (zero_based (d_ws b) (wd b (e_pos t + i * e_width t + m))) = OK v.
Lemma each_nth {A} n (g : Z -> A) i : (i < Z.to_nat n)%nat -> nth_error (each n g) i = Some (g (Z.of_nat i)).
Proof. intros L. unfold each. rewrite nth_error_map. rewrite (nth_error_nth' _ 0%nat) by (rewrite seq_length; exact L). rewrite seq_nth by exact L. reflexivity. Qed.
Lemma add_element_ok {A} (f : Z -> res Z) (t : etable) pl cap st l pids uids ucns (id_func : plot -> res (plot * list Z)) (el_func : plot -> res (plot * list A)) (nodes : A -> list Z) (g : Z -> A) :
  0 <= e_nodes t ->
  id_func pl = OK (clear pl, id_table b t) -> el_func (clear pl) = OK (clear pl, each (e_num t) g) -> el_func pl = OK (clear pl, each (e_num t) g) -> clear pl = pl ->
  passed uids (id_table b t) -> passed ucns (each (e_num t) g) -> words_strict (id_table b t) ->
  (forall i, nodes (g i) = map (zero_based (d_ws b)) (stretch b (e_pos t + i * e_width t) (e_nodes t))) ->
  known f t pids -> holds cap st l -> (length l + length pids * Z.to_nat (e_nodes t) <= cap)%nat ->
  exists st' l', add_element f pl st pids uids ucns id_func el_func nodes = OK (pl, st') /\ holds cap st' l' /\ (forall x, In x l' <-> In x l \/ node_via f t pids x) /\
    (length l' <= length l + length pids * Z.to_nat (e_nodes t))%nat.
Proof.
  intros Nn Qi Qe Qe' Cl Pi Pc Ss Hn Kn H R. unfold add_element. destruct pids as [|id0 pids0].
  { exists st, l. split; [reflexivity|]. split; [exact H|]. split; [|lia]. intros x. split; [auto|]. intros [X|(i & m & _ & [] & _)]. exact X. }
  remember (id0 :: pids0) as pids eqn:Ep. assert (Np : In id0 pids) by (rewrite Ep; left; reflexivity). destruct (Kn id0 Np) as (i0 & I0 & _ & _).
  assert (Li : length (id_table b t) = Z.to_nat (e_num t)) by apply stretch_length.
  assert (Lc : length (each (e_num t) g) = Z.to_nat (e_num t)) by apply each_length.
  assert (Q1 : (match uids with Some l => OK (pl, Some l) | None => do ' (pl, l) <- id_func pl; OK (match pl_err pl with Some _ => clear pl | None => pl end, null_if_empty l) end) = OK (pl, Some (id_table b t))).
  { destruct Pi as [-> | ->]; [|reflexivity]. rewrite Qi. cbn [bind]. change (pl_err (clear pl)) with (@None perr). cbn match. rewrite Cl. destruct (id_table b t); [cbn in Li; lia|reflexivity]. }
  rewrite Q1. cbn [bind].
  assert (Q2 : (match ucns with Some l => OK (pl, length (id_table b t), Some l) | None => do ' (pl, l) <- el_func pl; OK (match pl_err pl with Some _ => clear pl | None => pl end, length l, null_if_empty l) end) = OK (pl, length (id_table b t), Some (each (e_num t) g))).
  { destruct Pc as [-> | ->]; [|reflexivity]. rewrite Qe'. cbn [bind]. change (pl_err (clear pl)) with (@None perr). cbn match. rewrite Cl, Lc, Li. destruct (each (e_num t) g); [cbn in Lc; lia|reflexivity]. }
  rewrite Q2. cbn [bind].
  assert (NthC : forall i, (i < Z.to_nat (e_num t))%nat -> nth_error (map nodes (each (e_num t) g)) i = Some (map (zero_based (d_ws b)) (stretch b (e_pos t + Z.of_nat i * e_width t) (e_nodes t)))).
  { intros i I. rewrite nth_error_map, each_nth by exact I. cbn. rewrite Hn. reflexivity. }
  destruct (push_elements_ok cap f (id_table b t) (map nodes (each (e_num t) g)) (Z.to_nat (e_nodes t)) Ss) with (pids := pids) (st := st) (l := l) as (st' & l' & -> & H' & I' & L').
  - rewrite map_length. lia.
  - intros ns N. apply in_map_iff in N as (a & <- & Ia). unfold each in Ia. apply in_map_iff in Ia as (j & <- & _). rewrite Hn, map_length. apply stretch_length.
  - exact H.
  - exact R.
  - intros id Iid. destruct (Kn id Iid) as (i & Bi & Ei & Fi). exists (Z.to_nat i), (map (zero_based (d_ws b)) (stretch b (e_pos t + i * e_width t) (e_nodes t))).
    split; [unfold id_table; rewrite stretch_nth by lia; f_equal; rewrite Z2Nat.id by lia; exact Ei|]. split; [rewrite NthC by lia; rewrite Z2Nat.id by lia; reflexivity|].
    intros n N. apply in_map_iff in N as (w & <- & W). unfold stretch in W. apply in_map_iff in W as (m & <- & M). apply in_seq in M. apply Fi. lia.
  - cbn [bind]. exists st', l'. split; [reflexivity|]. split; [exact H'|]. split; [|exact L']. intros x. rewrite I'. split; (intros [X|X]; [left; exact X|right]).
    + destruct X as (id & i & ns & n & P & Ni & Nc & In_n & Fx). assert (i < Z.to_nat (e_num t))%nat by (rewrite <- Li; apply nth_error_Some; congruence).
      unfold id_table in Ni. rewrite stretch_nth in Ni by assumption. injection Ni as Ei. rewrite NthC in Nc by assumption. injection Nc as <-.
      apply in_map_iff in In_n as (w & <- & W). unfold stretch in W. apply in_map_iff in W as (m & <- & M). apply in_seq in M. exists (Z.of_nat i), (Z.of_nat m).
      split; [lia|]. split; [unfold element_id; rewrite Ei; exact P|]. split; [lia|exact Fx].
    + destruct X as (i & m & Bi & P & Bm & Fx). exists (element_id b t i), (Z.to_nat i), (map (zero_based (d_ws b)) (stretch b (e_pos t + i * e_width t) (e_nodes t))), (zero_based (d_ws b) (wd b (e_pos t + i * e_width t + m))).
      split; [exact P|]. split; [unfold id_table; rewrite stretch_nth by lia; rewrite Z2Nat.id by lia; reflexivity|]. split; [rewrite NthC by lia; rewrite Z2Nat.id by lia; reflexivity|]. split; [|exact Fx].
      apply in_map. unfold stretch. apply in_map_iff. exists (Z.to_nat m). split; [f_equal; lia|]. apply in_seq. lia.
Qed.
Lemma holds_nil cap : holds cap {| n_cells := repeat None cap; n_num := 0 |} [].
Proof. split; [unfold cells_of; cbn [length map app]; rewrite Nat.sub_0_r; reflexivity|]. split; [cbn; lia|constructor]. Qed.
Lemma part_nodes_ok f pl p t : opened b titles states pl -> has_ids b = true -> distinct_ids b -> passed_tables b t -> pl_err pl = None ->
  known f (solids b) (p_solid_ids p) -> known f (beams b) (p_beam_ids p) -> known f (shells b) (p_shell_ids p) -> known f (thick_shells b) (p_thick_shell_ids p) ->
  exists l, part_nodes f pl p t = OK (pl, l) /\ words_strict l /\
    forall x, In x l <-> node_via f (solids b) (p_solid_ids p) x \/ node_via f (beams b) (p_beam_ids p) x \/ node_via f (shells b) (p_shell_ids p) x \/ node_via f (thick_shells b) (p_thick_shell_ids p) x.
Proof.
  intros O Hi D (P1 & P2 & P3 & P4 & P5 & P6 & P7 & P8) E K1 K2 K3 K4. pose proof (opened_view _ _ _ _ O) as V. pose proof (view_err _ _ _ _ V None) as Vc. fold (clear pl) in Vc.
  assert (Cl : clear pl = pl) by (apply with_err_id; exact E). unfold distinct_ids, all_tables in D.
  pose proof (Forall_inv D) as D1. apply Forall_inv_tail in D. pose proof (Forall_inv D) as D2. apply Forall_inv_tail in D. pose proof (Forall_inv D) as D3. apply Forall_inv_tail in D. pose proof (Forall_inv D) as D4. clear D.
  unfold part_nodes. set (cap := (length (p_solid_ids p) * 8 + length (p_beam_ids p) * 2 + length (p_shell_ids p) * 4 + length (p_thick_shell_ids p) * 8)%nat). cbv zeta.
  assert (N2 : forall i, [zero_based (d_ws b) (wd b (g_el2 b + i * 6)); zero_based (d_ws b) (wd b (g_el2 b + i * 6 + 1))] = map (zero_based (d_ws b)) (stretch b (g_el2 b + i * 6) 2)).
  { intros i. unfold stretch. change (Z.to_nat 2) with 2%nat. cbn [seq map]. rewrite Z.add_0_r. reflexivity. }
  destruct (add_element_ok f (solids b) pl cap {| n_cells := repeat None cap; n_num := 0 |} [] (p_solid_ids p) (t_solid_ids t) (t_solid_cons t) read_solid_element_ids read_solid_elements c_nodes (con_spec b (g_el8 b) 8)
    ltac:(cbn; lia) (solid_ids_ok b titles states _ V Hi) (solids_con_ok b titles states _ Vc) (solids_con_ok b titles states _ V) Cl P1 P5 D1) as (st1 & l1 & Q1 & H1 & I1 & L1);
    [intros i; reflexivity|exact K1|apply holds_nil|cbn [solids e_nodes length]; change (Z.to_nat 8) with 8%nat; unfold cap; lia|].
  cbn [solids e_nodes length] in L1. change (Z.to_nat 8) with 8%nat in L1. rewrite Q1. cbn [bind].
  destruct (add_element_ok f (beams b) pl cap st1 l1 (p_beam_ids p) (t_beam_ids t) (t_beam_cons t) read_beam_element_ids read_beam_elements bc_nodes (beam_con_spec b (g_el2 b))
    ltac:(cbn; lia) (beam_ids_ok b titles states _ V Hi) (beams_con_ok b titles states _ Vc) (beams_con_ok b titles states _ V) Cl P2 P6 D2) as (st2 & l2 & Q2 & H2 & I2 & L2);
    [intros i; reflexivity|exact K2|exact H1|cbn [beams e_nodes length]; change (Z.to_nat 2) with 2%nat; unfold cap; lia|].
  cbn [beams e_nodes length] in L2. change (Z.to_nat 2) with 2%nat in L2. rewrite Q2. cbn [bind].
  destruct (add_element_ok f (shells b) pl cap st2 l2 (p_shell_ids p) (t_shell_ids t) (t_shell_cons t) read_shell_element_ids read_shell_elements c_nodes (con_spec b (g_el4 b) 4)
    ltac:(cbn; lia) (shell_ids_ok b titles states _ V Hi) (shells_con_ok b titles states _ Vc) (shells_con_ok b titles states _ V) Cl P3 P7 D3) as (st3 & l3 & Q3 & H3 & I3 & L3);
    [intros i; reflexivity|exact K3|exact H2|cbn [shells e_nodes length]; change (Z.to_nat 4) with 4%nat; unfold cap; lia|].
  cbn [shells e_nodes length] in L3. change (Z.to_nat 4) with 4%nat in L3. rewrite Q3. cbn [bind].
  destruct (add_element_ok f (thick_shells b) pl cap st3 l3 (p_thick_shell_ids p) (t_thick_shell_ids t) (t_thick_shell_cons t) read_thick_shell_element_ids read_thick_shell_elements c_nodes (con_spec b (g_elt b) 8)
    ltac:(cbn; lia) (thick_shell_ids_ok b titles states _ V Hi) (thick_shells_con_ok b titles states _ Vc) (thick_shells_con_ok b titles states _ V) Cl P4 P8 D4) as (st4 & l4 & Q4 & H4 & I4 & L4);
    [intros i; reflexivity|exact K4|exact H3|cbn [thick_shells e_nodes length]; change (Z.to_nat 8) with 8%nat; unfold cap; lia|].
  rewrite Q4. cbn [bind]. destruct H4 as (-> & Lc & Ss). cbn [n_cells n_num]. rewrite build_cells by exact Lc. cbn [bind]. exists l4. split; [reflexivity|]. split; [exact Ss|].
  intros x. rewrite I4, I3, I2, I1. cbn [In]. tauto.
Qed.
(** The elements of a part are those of its members. *)
Lemma members_in t k i : In i (members b t k) <-> 0 <= i < e_num t /\ in_part b t k i = true.
Proof.
  unfold members. rewrite filter_In. apply and_iff_compat_r. unfold each. rewrite in_map_iff. split.
  - intros (j & <- & J). apply in_seq in J. lia.
  - intros I. exists (Z.to_nat i). split; [lia|]. apply in_seq. lia.
Qed.
Lemma id_inj t i j : words_strict (id_table b t) -> 0 <= i < e_num t -> 0 <= j < e_num t -> element_id b t i = element_id b t j -> i = j.
Proof.
  intros S I J E. assert (Z.to_nat i = Z.to_nat j); [|lia]. apply (words_strict_nth_inj (id_table b t) _ _ (element_id b t i) S); unfold id_table; rewrite stretch_nth by lia; rewrite Z2Nat.id by lia; [reflexivity|].
  unfold element_id in *. congruence.
Qed.
Lemma via_members f t k x : words_strict (id_table b t) ->
  (node_via f t (member_ids b t k) x <-> exists i m, 0 <= i < e_num t /\ in_part b t k i = true /\ 0 <= m < e_nodes t /\ f (zero_based (d_ws b) (wd b (e_pos t + i * e_width t + m))) = OK x).
Proof.
  intros S. split.
  - intros (i & m & I & P & M & F). apply in_map_iff in P as (j & E & J). apply members_in in J as (J & Pj). assert (j = i) by (apply (id_inj t); auto). subst j. exists i, m. auto.
  - intros (i & m & I & P & M & F). exists i, m. split; [exact I|]. split; [|auto]. unfold member_ids. apply in_map, members_in. auto.
Qed.
Lemma known_members f t k : (forall i m, 0 <= i < e_num t -> in_part b t k i = true -> 0 <= m < e_nodes t -> exists v, f (zero_based (d_ws b) (wd b (e_pos t + i * e_width t + m))) = OK v) ->
  known f t (member_ids b t k).
Proof. intros F id I. apply in_map_iff in I as (i & E & I). apply members_in in I as (I & P). exists i. split; [exact I|]. split; [exact E|]. intros m M. apply F; auto. Qed.
(** The nodes of a part, for a translation [f] that is defined on all of them. *)
Lemma part_of_nodes f pl k t : opened b titles states pl -> has_ids b = true -> distinct_ids b -> passed_tables b t -> pl_err pl = None ->
  (forall w, node_word b k w -> exists v, f (zero_based (d_ws b) w) = OK v) ->
  exists l, part_nodes f pl (part_of b k) t = OK (pl, l) /\ words_strict l /\ forall x, In x l <-> exists w, node_word b k w /\ f (zero_based (d_ws b) w) = OK x.
Proof.
  intros O Hi D P E F.
  assert (Kn : forall t, In t (all_tables b) -> known f t (member_ids b t k)).
  { intros t0 T. apply known_members. intros i m I Pi M. apply F. exists t0, i, m. auto. }
  destruct (part_nodes_ok f pl (part_of b k) t O Hi D P E) as (l & Q & S & I); try (apply Kn; cbn; tauto). exists l. split; [exact Q|]. split; [exact S|].
  assert (D' : forall t, In t (all_tables b) -> words_strict (id_table b t)) by (intros t0 T; unfold distinct_ids in D; rewrite Forall_forall in D; apply D, T).
  intros x. rewrite I. cbn [part_of p_solid_ids p_beam_ids p_shell_ids p_thick_shell_ids].
  rewrite (via_members f (solids b)), (via_members f (beams b)), (via_members f (shells b)), (via_members f (thick_shells b)) by (apply D'; cbn; tauto). split.
  - intros [X|[X|[X|X]]]; destruct X as (i & m & Bi & Pi & M & Fx); eexists; (split; [|exact Fx]); eexists _, i, m; (split; [|split; [exact Bi|split; [exact Pi|split; [exact M|reflexivity]]]]); cbn; tauto.
  - intros (w & (t0 & i & m & T & Bi & Pi & M & ->) & Fx). cbn [all_tables In] in T. destruct T as [<-|[<-|[<-|[<-|[]]]]]; [left|right; left|right; right; left|right; right; right]; exists i, m; auto.
Qed.
End Parts.

(** ** All element ids *)
Lemma memcpy_over {A} (a x c src : list A) : length x = length src -> memcpy (a ++ x ++ c) (length a) src 0 (length src) = OK (a ++ src ++ c).
Proof.
  intros L. unfold memcpy. rewrite !app_length. replace ((length a + length src <=? length a + (length x + length c))%nat && (0 + length src <=? length src)%nat) with true by (symmetry; apply andb_true_intro; split; apply Nat.leb_le; lia).
  cbn [skipn]. rewrite firstn_all, firstn_app, Nat.sub_diag, firstn_all, firstn_O, app_nil_r. do 3 f_equal. rewrite app_assoc, skipn_app. replace (length a + length src - length (a ++ x))%nat with O by (rewrite app_length; lia).
  rewrite skipn_all2 by (rewrite app_length; lia). reflexivity.
Qed.
(** Moving the rest [c] behind [a], and the table [src] between them. *)
Lemma open_gap (a c src junk : list Z) : src <> [] -> length junk = length src ->
  (do dst <- memcpy_within ((a ++ c) ++ junk) (length a + length src) (length a) (length c); memcpy dst (length a) src 0 (length src)) =
  if (length c <=? length src)%nat then OK (a ++ src ++ c) else UB.
Proof.
  intros Ns Lj. assert (length src <> 0)%nat by (destruct src; [congruence|cbn; lia]). unfold memcpy_within.
  destruct (Nat.leb_spec (length c) (length src)) as [L|L].
  - replace ((length c =? 0)%nat || (length a + length c <=? length a + length src)%nat || (length a + length src + length c <=? length a)%nat) with true
      by (symmetry; apply orb_true_intro; left; apply orb_true_intro; right; apply Nat.leb_le; lia).
    assert (M : memcpy ((a ++ c) ++ junk) (length a + length src) ((a ++ c) ++ junk) (length a) (length c) = OK (a ++ firstn (length src) (c ++ junk) ++ c)).
    { unfold memcpy. rewrite !app_length. replace ((length a + length src + length c <=? length a + length c + length junk)%nat && (length a + length c <=? length a + length c + length junk)%nat) with true by (symmetry; apply andb_true_intro; split; apply Nat.leb_le; lia).
      f_equal. rewrite <- app_assoc. rewrite firstn_app. rewrite firstn_all2 by lia. replace (length a + length src - length a)%nat with (length src) by lia. rewrite <- app_assoc. f_equal. f_equal.
      rewrite skipn_app, skipn_all2 by lia. rewrite Nat.sub_diag. cbn [skipn app]. rewrite firstn_app, firstn_all, Nat.sub_diag, firstn_O, app_nil_r.
      rewrite skipn_all2; [apply app_nil_r|]. rewrite !app_length. lia. }
    rewrite M. cbn [bind]. apply memcpy_over. rewrite firstn_length, app_length. lia.
  - replace ((length c =? 0)%nat || (length a + length c <=? length a + length src)%nat || (length a + length src + length c <=? length a)%nat) with false; [reflexivity|].
    symmetry. repeat (apply orb_false_intro); [apply Nat.eqb_neq|apply Nat.leb_gt|apply Nat.leb_gt]; lia.
Qed.
Lemma gap_index_range dst n s junk : n = length dst -> forall fuel i, (1 <= i <= n)%nat -> (n < i + fuel)%nat -> exists j, gap_index fuel (dst ++ junk) n s i = OK j /\ (i <= j <= n)%nat.
Proof.
  intros En. induction fuel as [|fuel IH]; intros i I F; [lia|]. cbn [gap_index]. destruct (Nat.ltb_spec i n) as [L|L]; [|exists i; split; [reflexivity|lia]].
  unfold aget. rewrite !nth_error_app1 by lia. destruct (nth_error dst (i - 1)) as [x|] eqn:N1; [|apply nth_error_None in N1; lia]. destruct (nth_error dst i) as [y|] eqn:N2; [|apply nth_error_None in N2; lia]. cbn [bind].
  destruct ((x <? s) && (y >? s)); [exists i; split; [reflexivity|lia]|]. destruct (IH (i + 1)%nat ltac:(lia) ltac:(lia)) as (j & Q & J). exists j. split; [exact Q|lia].
Qed.
(** The gap is found: the elements before it are below [s]. *)
Lemma gap_index_found a c s junk : c <> [] -> Forall (fun x => x < s) a -> Forall (fun x => s < x) c -> forall fuel i, (1 <= i <= length a)%nat -> (length a < i + fuel)%nat -> gap_index fuel ((a ++ c) ++ junk) (length (a ++ c)) s i = OK (length a).
Proof.
  intros Nc Fa Fc. assert (0 < length c)%nat by (destruct c; [congruence|cbn; lia]). rewrite Forall_forall in Fa, Fc. induction fuel as [|fuel IH]; intros i I F; [lia|]. cbn [gap_index].
  replace (i <? length (a ++ c))%nat with true by (symmetry; apply Nat.ltb_lt; rewrite app_length; lia).
  assert (N1 : exists x, nth_error ((a ++ c) ++ junk) (i - 1) = Some x /\ x < s).
  { destruct (nth_error a (i - 1)) as [x|] eqn:N; [|apply nth_error_None in N; lia]. exists x. split; [rewrite <- app_assoc, nth_error_app1 by lia; exact N|apply Fa; eapply nth_error_In; exact N]. }
  destruct N1 as (x & N1 & Lx). unfold aget at 1. rewrite N1. cbn [bind]. destruct (Nat.eq_dec i (length a)) as [E|E].
  - assert (N2 : exists y, nth_error ((a ++ c) ++ junk) i = Some y /\ s < y).
    { destruct (nth_error c 0) as [y|] eqn:N; [|apply nth_error_None in N; lia]. exists y. split; [rewrite <- app_assoc, nth_error_app2 by lia; rewrite E, Nat.sub_diag, nth_error_app1 by lia; exact N|apply Fc; eapply nth_error_In; exact N]. }
    destruct N2 as (y & N2 & Ly). unfold aget. rewrite N2. cbn [bind]. replace ((x <? s) && (y >? s)) with true by (symmetry; apply andb_true_intro; lia). rewrite E. reflexivity.
  - assert (N2 : exists y, nth_error ((a ++ c) ++ junk) i = Some y /\ y < s).
    { destruct (nth_error a i) as [y|] eqn:N; [|apply nth_error_None in N; lia]. exists y. split; [rewrite <- app_assoc, nth_error_app1 by lia; exact N|apply Fa; eapply nth_error_In; exact N]. }
    destruct N2 as (y & N2 & Ly). unfold aget. rewrite N2. cbn [bind]. replace ((x <? s) && (y >? s)) with false by (symmetry; apply andb_false_intro2; lia). apply IH; lia.
Qed.
Lemma realloc_more (dst : list Z) m : realloc dst (length dst + m) = dst ++ repeat JUNK m.
Proof. unfold realloc. rewrite firstn_all2 by lia. replace (length dst + m - length dst)%nat with m by lia. reflexivity. Qed.
(** _insert_sorted on arrays that are not empty: it puts the whole of src
    somewhere into dst, or the behaviour is undefined. *)
Lemma insert_into_cases dst src : dst <> [] -> src <> [] ->
  exists i, (i <= length dst)%nat /\ insert_into dst (length dst) src = (if (length (skipn i dst) <=? length src)%nat then OK (firstn i dst ++ src ++ skipn i dst) else UB).
Proof.
  intros Nd Ns. unfold insert_into. destruct dst as [|d0 dst0] eqn:Ed; [congruence|]. rewrite <- Ed in *. assert (Ld : length dst = S (length dst0)) by (rewrite Ed; reflexivity). rewrite Ld.
  assert (A1 : aget dst 0 = OK d0) by (rewrite Ed; reflexivity). rewrite A1. cbn [bind].
  assert (A2 : exists dm, aget dst (length dst0) = OK dm) by (unfold aget; destruct (nth_error dst (length dst0)) as [x|] eqn:N; [exists x; reflexivity|apply nth_error_None in N; lia]). destruct A2 as (dm & A2). rewrite A2. cbn [bind].
  destruct src as [|s0 src0] eqn:Es; [congruence|]. rewrite <- Es in *. assert (Ls : length src = S (length src0)) by (rewrite Es; reflexivity).
  assert (A3 : aget src 0 = OK s0) by (rewrite Es; reflexivity). rewrite A3. cbn [bind].
  assert (A4 : exists sm, aget src (length src - 1) = OK sm) by (unfold aget; destruct (nth_error src (length src - 1)) as [x|] eqn:N; [exists x; reflexivity|apply nth_error_None in N; lia]). destruct A4 as (sm & A4). rewrite A4. cbn [bind].
  rewrite <- Ld. rewrite realloc_more. assert (Lj : length (repeat JUNK (length src)) = length src) by apply repeat_length. destruct (sm <=? d0).
  - exists 0%nat. split; [lia|]. cbn [skipn firstn app]. apply (open_gap [] dst src _ Ns Lj).
  - destruct (s0 >=? dm).
    + exists (length dst). split; [lia|]. rewrite skipn_all, firstn_all. cbn [length Nat.leb]. rewrite <- (app_nil_r (dst ++ repeat JUNK (length src))), <- app_assoc. apply memcpy_over. exact Lj.
    + destruct (gap_index_range dst (length dst) s0 (repeat JUNK (length src)) eq_refl (S (length dst)) 1%nat ltac:(lia) ltac:(lia)) as (j & -> & J). cbn [bind]. exists j. split; [lia|].
      assert (Ef : length (firstn j dst) = j) by (rewrite firstn_length; lia). pose proof (open_gap (firstn j dst) (skipn j dst) src _ Ns Lj) as G. rewrite firstn_skipn, Ef, skipn_length in G. rewrite skipn_length. exact G.
Qed.
Lemma strict_app_lt (l r : list Z) : words_strict (l ++ r) -> forall x y, In x l -> In y r -> x < y.
Proof.
  unfold words_strict. induction l as [|z l IH]; intros S x y X Y; [destruct X|]. cbn [app] in S. inversion S as [|? ? S' F]; subst. destruct X as [->|X]; [|eapply IH; eassumption].
  rewrite Forall_forall in F. apply F, in_or_app. right. exact Y.
Qed.
Lemma strict_app (l r : list Z) : words_strict l -> words_strict r -> (forall x y, In x l -> In y r -> x < y) -> words_strict (l ++ r).
Proof.
  unfold words_strict. induction l as [|z l IH]; intros Sl Sr H; [exact Sr|]. inversion Sl as [|? ? S' F]; subst. cbn [app]. constructor; [apply IH; [exact S'|exact Sr|intros; apply H; [right; assumption|assumption]]|].
  apply Forall_app. split; [exact F|]. apply Forall_forall. intros y Y. apply H; [left; reflexivity|exact Y].
Qed.
Lemma strict_parts (l r : list Z) : words_strict (l ++ r) -> words_strict l /\ words_strict r.
Proof.
  unfold words_strict. induction l as [|z l IH]; intros S; [split; [constructor|exact S]|]. inversion S as [|? ? S' F]; subst. destruct (IH S') as (A & B). split; [|exact B]. constructor; [exact A|]. apply Forall_app in F. apply F.
Qed.
Lemma gap_sorted dst src a c : words_strict dst -> words_strict src -> gap dst src a c -> words_strict (a ++ src ++ c).
Proof.
  intros Sd Ss (-> & A & C & _). destruct (strict_parts a c Sd) as (Sa & Sc). pose proof (strict_app_lt a c Sd) as AC. apply strict_app; [exact Sa|apply strict_app; [exact Ss|exact Sc|]|].
  - intros x y X Y. apply (C y x Y X).
  - intros x y X Y. apply in_app_or in Y as [Y|Y]; [apply A; assumption|apply AC; assumption].
Qed.
Lemma nth_last {A} (l : list A) : l <> [] -> exists x, nth_error l (length l - 1) = Some x /\ In x l.
Proof. intros N. assert (0 < length l)%nat by (destruct l; [congruence|cbn; lia]). destruct (nth_error l (length l - 1)) as [x|] eqn:E; [exists x; split; [reflexivity|eapply nth_error_In; exact E]|apply nth_error_None in E; lia]. Qed.
Lemma insert_gap dst src a c : dst <> [] -> src <> [] -> gap dst src a c -> insert_into dst (length dst) src = OK (a ++ src ++ c).
Proof.
  intros Nd Ns (Ed & A & C & Lc). unfold insert_into.
  destruct (nth_last dst Nd) as (dm & N2 & I2). destruct (nth_last src Ns) as (sm & N4 & I4).
  destruct dst as [|d0 dst0] eqn:E; [congruence|]. rewrite <- E in *. assert (Ld : length dst = S (length dst0)) by (rewrite E; reflexivity). assert (N1 : nth_error dst 0 = Some d0) by (rewrite E; reflexivity).
  destruct src as [|s0 src0] eqn:Es; [congruence|]. rewrite <- Es in *. assert (Ls : length src = S (length src0)) by (rewrite Es; reflexivity). assert (N3 : nth_error src 0 = Some s0) by (rewrite Es; reflexivity).
  assert (I3 : In s0 src) by (eapply nth_error_In; exact N3).
  replace (length dst - 1)%nat with (length dst0) in N2 by lia. rewrite Ld. unfold aget. rewrite N1, N2, N3, N4. cbn [bind]. rewrite <- Ld, realloc_more. assert (Lj : length (repeat JUNK (length src)) = length src) by apply repeat_length.
  assert (Cl : (length c <=? length src)%nat = true) by (apply Nat.leb_le; exact Lc).
  destruct a as [|a0 a1] eqn:Ea.
  - assert (sm < d0) by (apply C; [rewrite <- (app_nil_l c), <- Ed; eapply nth_error_In; exact N1|exact I4]). replace (sm <=? d0) with true by lia.
    pose proof (open_gap [] c src _ Ns Lj) as G. rewrite <- Ed, Cl in G. assert (Edc : dst = c) by exact Ed. rewrite Edc in *. exact G.
  - rewrite <- Ea in *. assert (E0 : d0 = a0) by (rewrite Ed, Ea in N1; cbn in N1; congruence). assert (d0 < sm) by (apply A; [rewrite E0, Ea; left; reflexivity|exact I4]). replace (sm <=? d0) with false by lia.
    destruct c as [|c0 c1] eqn:Ec.
    + rewrite app_nil_r in Ed. assert (dm < s0) by (apply A; [rewrite <- Ed; exact I2|exact I3]). replace (s0 >=? dm) with true by lia.
      rewrite <- (app_nil_r (dst ++ repeat JUNK (length src))), <- app_assoc. rewrite memcpy_over by exact Lj. rewrite app_nil_r, Ed. reflexivity.
    + rewrite <- Ec in *. assert (Nc : c <> []) by (rewrite Ec; discriminate). assert (Idm : In dm c).
      { rewrite Ed in N2. assert (length dst = (length a + length c)%nat) by (rewrite Ed; apply app_length). assert (0 < length c)%nat by (rewrite Ec; cbn; lia). rewrite nth_error_app2 in N2 by lia. eapply nth_error_In; exact N2. }
      assert (s0 < dm) by (apply C; assumption). replace (s0 >=? dm) with false by lia. rewrite Ed.
      rewrite (gap_index_found a c s0 (repeat JUNK (length src)) Nc); [|apply Forall_forall; intros x X; apply A; assumption|apply Forall_forall; intros x X; apply C; assumption|rewrite Ea; cbn; lia|rewrite app_length; lia].
      cbn [bind]. replace (length (a ++ c) - length a)%nat with (length c) by (rewrite app_length; lia). rewrite (open_gap a c src _ Ns Lj), Cl. reflexivity.
Qed.
Lemma merge_perm (a c src : list Z) : Permutation (a ++ src ++ c) ((a ++ c) ++ src).
Proof. rewrite <- app_assoc. apply Permutation_app_head, Permutation_app_comm. Qed.
(** Merging tables one after the other. *)
Fixpoint merge_tables (all : list Z) (l : list (list Z)) : res (list Z) :=
  match l with
  | [] => OK all
  | [] :: r => merge_tables all r
  | src :: r => do x <- match all with [] => OK src | _ => insert_into all (length all) src end; merge_tables x r
  end.
Lemma merge_ok all l : mergeable all l -> words_strict all -> Forall words_strict l -> exists x, merge_tables all l = OK x /\ words_strict x /\ Permutation x (all ++ concat l).
Proof.
  induction 1 as [all|all r M IH|src r N M IH|all src r a c Na Ns G M IH]; intros Sa Sl.
  - exists all. cbn. rewrite app_nil_r. split; [reflexivity|]. split; [exact Sa|reflexivity].
  - cbn [merge_tables concat app]. apply IH; [exact Sa|]. eapply Forall_inv_tail; exact Sl.
  - pose proof (Forall_inv Sl) as Ss. apply Forall_inv_tail in Sl. destruct (IH Ss Sl) as (x & Q & S & P). exists x. split; [|split; [exact S|exact P]]. cbn [merge_tables]. destruct src; [congruence|]. exact Q.
  - pose proof (Forall_inv Sl) as Ss. apply Forall_inv_tail in Sl. pose proof (gap_sorted all src a c Sa Ss G) as S1. destruct (IH S1 Sl) as (x & Q & S & P). exists x. split; [|split; [exact S|]].
    + cbn [merge_tables]. destruct src as [|s0 src]; [congruence|]. destruct all as [|d0 all]; [congruence|]. rewrite (insert_gap _ _ a c Na Ns G). exact Q.
    + rewrite P. cbn [concat]. destruct G as (-> & _). rewrite (merge_perm a c src), <- app_assoc. reflexivity.
Qed.
Lemma merge_any : forall l all, merge_tables all l = UB \/ exists x, merge_tables all l = OK x /\ Permutation x (all ++ concat l).
Proof.
  induction l as [|src r IH]; intros all; [right; exists all; cbn; rewrite app_nil_r; split; reflexivity|]. cbn [merge_tables concat]. destruct src as [|s0 src]; [apply IH|]. remember (s0 :: src) as s eqn:Es.
  destruct all as [|d0 all0]; [cbn [bind app]; apply IH|]. remember (d0 :: all0) as all eqn:Ea.
  destruct (insert_into_cases all s ltac:(rewrite Ea; discriminate) ltac:(rewrite Es; discriminate)) as (i & I & Q). rewrite Q. destruct (length (skipn i all) <=? length s)%nat; cbn [bind]; [|left; reflexivity].
  destruct (IH (firstn i all ++ s ++ skipn i all)) as [-> | (x & Qx & P)]; [left; reflexivity|right; exists x; split; [exact Qx|]]. rewrite P, (merge_perm (firstn i all) (skipn i all) s), firstn_skipn, <- app_assoc. reflexivity.
Qed.
Lemma add_ids_tables pl ids reader all : reader pl = OK (clear pl, ids) -> forall k : plot * option (list Z) -> res (plot * list Z),
  (do r <- add_ids pl all reader; k r) = (do r <- match ids with [] => OK all | _ => do l <- insert_sorted all ids; OK (Some l) end; k (clear pl, r)).
Proof. intros Q k. unfold add_ids. rewrite Q. cbn [bind]. destruct ids; [reflexivity|]. destruct (insert_sorted all (z :: ids)); reflexivity. Qed.
Lemma or_null_tables pl : forall ts all, (all <> Some []) ->
  (fix go (all : option (list Z)) (ts : list (list Z)) : res (plot * list Z) :=
     match ts with [] => OK (pl, or_null all) | ids :: r => do a <- match ids with [] => OK all | _ => do l <- insert_sorted all ids; OK (Some l) end; go a r end) all ts =
  do l <- merge_tables (or_null all) ts; OK (pl, l).
Proof.
  induction ts as [|ids r IH]; intros all N; [reflexivity|]. cbn [merge_tables]. destruct ids as [|i0 ids]; [cbn [bind]; apply IH; exact N|].
  destruct all as [[|d0 all]|]; [congruence| |].
  - cbn [or_null insert_sorted]. destruct (insert_into_cases (d0 :: all) (i0 :: ids) ltac:(discriminate) ltac:(discriminate)) as (i & I & Q). rewrite Q. destruct (length (skipn i (d0 :: all)) <=? length (i0 :: ids))%nat; [|reflexivity].
    cbn [bind]. rewrite IH; [reflexivity|]. intros E. injection E as E. apply app_eq_nil in E as (_ & E). discriminate.
  - cbn [or_null insert_sorted bind]. rewrite IH; [reflexivity|discriminate].
Qed.
Lemma read_all_ok b titles states pl : opened b titles states pl -> has_ids b = true ->
  read_all_element_ids pl = do l <- merge_tables [] (map (id_table b) (all_tables b)); OK (clear pl, l).
Proof.
  intros O Hi. pose proof (opened_view _ _ _ _ O) as V. pose proof (view_err _ _ _ _ V None) as Vc. fold (clear pl) in Vc. unfold read_all_element_ids.
  rewrite (add_ids_tables pl _ _ None (solid_ids_ok b titles states pl V Hi)). change (clear (clear pl)) with (clear pl).
  transitivity (do l <- merge_tables (or_null None) (map (id_table b) (all_tables b)); OK (clear pl, l)); [|reflexivity].
  rewrite <- (or_null_tables (clear pl) (map (id_table b) (all_tables b)) None ltac:(discriminate)). cbn [all_tables map].
  change (id_table b (solids b)) with (stretch b (i_el8 b) (cval b NEL8)). destruct (match stretch b (i_el8 b) (cval b NEL8) with [] => OK None | _ => _ end) as [a1| |]; [|reflexivity|reflexivity]. cbn [bind].
  rewrite (add_ids_tables (clear pl) _ _ a1 (beam_ids_ok b titles states _ Vc Hi)). change (clear (clear pl)) with (clear pl).
  change (id_table b (beams b)) with (stretch b (i_el2 b) (cval b NEL2)). destruct (match stretch b (i_el2 b) (cval b NEL2) with [] => OK a1 | _ => _ end) as [a2| |]; [|reflexivity|reflexivity]. cbn [bind].
  rewrite (add_ids_tables (clear pl) _ _ a2 (shell_ids_ok b titles states _ Vc Hi)). change (clear (clear pl)) with (clear pl).
  change (id_table b (shells b)) with (stretch b (i_el4 b) (cval b NEL4)). destruct (match stretch b (i_el4 b) (cval b NEL4) with [] => OK a2 | _ => _ end) as [a3| |]; [|reflexivity|reflexivity]. cbn [bind].
  rewrite (add_ids_tables (clear pl) _ _ a3 (thick_shell_ids_ok b titles states _ Vc Hi)). change (clear (clear pl)) with (clear pl).
  change (id_table b (thick_shells b)) with (stretch b (i_elt b) (cval b NELT)). destruct (match stretch b (i_elt b) (cval b NELT) with [] => OK a3 | _ => _ end) as [a4| |]; reflexivity.
Qed.
(** The ids of a part, if realloc does not move the array. *)
Lemma realloc_junk (cur : list Z) q m : realloc (cur ++ repeat JUNK q) (length cur + m) = cur ++ repeat JUNK m.
Proof.
  unfold realloc. rewrite app_length, repeat_length, firstn_app. rewrite firstn_all2 by lia. replace (length cur + m - length cur)%nat with m by lia. rewrite <- app_assoc. f_equal.
  destruct (le_lt_dec m q) as [L|L].
  - replace (length cur + m - (length cur + q))%nat with O by lia. cbn [repeat]. rewrite app_nil_r. replace q with (m + (q - m))%nat by lia. rewrite repeat_app, firstn_app, repeat_length, Nat.sub_diag, firstn_O, app_nil_r.
    apply firstn_all2. rewrite repeat_length. lia.
  - rewrite firstn_all2 by (rewrite repeat_length; lia). rewrite <- repeat_app. f_equal. lia.
Qed.
Lemma insert_junk cur q src : cur <> [] -> insert_into (cur ++ repeat JUNK q) (length cur) src = insert_into cur (length cur) src.
Proof.
  intros N. destruct cur as [|c0 cur0] eqn:E; [congruence|]. rewrite <- E in *. assert (L : length cur = S (length cur0)) by (rewrite E; reflexivity). unfold insert_into.
  assert (A1 : aget (cur ++ repeat JUNK q) 0 = aget cur 0) by (unfold aget; rewrite nth_error_app1 by lia; reflexivity). rewrite A1.
  assert (A2 : aget (cur ++ repeat JUNK q) (length cur0) = aget cur (length cur0)) by (unfold aget; rewrite nth_error_app1 by lia; reflexivity). rewrite L, A2, <- L. rewrite realloc_junk, realloc_more. reflexivity.
Qed.
Lemma part_all_ok moves : (forall o n, moves o n = false) -> forall l cur q, (q = O /\ cur <> []) \/ q = length (concat l) -> part_all moves (cur ++ repeat JUNK q) (length cur) l = merge_tables cur l.
Proof.
  intros Mv. induction l as [|src r IH]; intros cur q H.
  - cbn. assert (q = O) by (destruct H as [(H & _)|H]; exact H). subst q. cbn. rewrite app_nil_r. reflexivity.
  - cbn [part_all merge_tables]. destruct src as [|s0 src0]; [apply IH; exact H|]. remember (s0 :: src0) as src eqn:Es. assert (Ns : src <> []) by (rewrite Es; discriminate).
    destruct cur as [|c0 cur0].
    + cbn [app length bind]. destruct H as [(_ & H)|H]; [congruence|]. cbn [concat] in H. rewrite app_length in H. rewrite H, repeat_app.
      pose proof (memcpy_over [] (repeat JUNK (length src)) (repeat JUNK (length (concat r))) src ltac:(apply repeat_length)) as M. cbn [app length] in M. rewrite M. cbn [bind]. cbn [Nat.add].
      rewrite IH; [|right; reflexivity]. reflexivity.
    + remember (c0 :: cur0) as cur eqn:Ec. assert (Nc : cur <> []) by (rewrite Ec; discriminate). assert (Lc : length cur = S (length cur0)) by (rewrite Ec; reflexivity). rewrite Lc. cbn match.
      unfold insert_ignored. rewrite Mv, <- Lc, insert_junk by exact Nc. destruct (insert_into_cases cur src Nc Ns) as (i & I & Q). rewrite Q. destruct (length (skipn i cur) <=? length src)%nat; cbn [bind]; [|reflexivity].
      assert (El : (length cur + length src)%nat = length (firstn i cur ++ src ++ skipn i cur)) by (rewrite !app_length, firstn_length, skipn_length; lia). rewrite El.
      rewrite <- (app_nil_r (firstn i cur ++ src ++ skipn i cur)) at 1. change (@nil Z) with (repeat JUNK 0). apply IH. left. split; [reflexivity|]. intros E. apply app_eq_nil in E as (_ & E). apply app_eq_nil in E as (E & _). congruence.
Qed.
Lemma part_ids_merge moves p : (forall o n, moves o n = false) -> part_get_all_element_ids moves p = merge_tables [] (part_tables p).
Proof.
  intros Mv. unfold part_get_all_element_ids, malloc. change (repeat JUNK (part_get_num_elements p)) with ([] ++ repeat JUNK (part_get_num_elements p)). change O with (length (@nil Z)) at 1. apply (part_all_ok moves Mv). right.
  unfold part_get_num_elements. unfold part_tables. cbn [concat]. rewrite !app_length. cbn [length]. lia.
Qed.
(** Ascending tables can be merged. *)
Lemma ascending_merge : forall l all, ascending l -> Forall (fun t => forall x y, In x all -> In y t -> x < y) l -> merge_tables all l = OK (all ++ concat l).
Proof.
  induction l as [|src r IH]; intros all A F; [cbn; rewrite app_nil_r; reflexivity|]. inversion A as [|? ? A1 A2]; subst. pose proof (Forall_inv F) as F1. apply Forall_inv_tail in F. cbn [merge_tables concat].
  destruct src as [|s0 src0]; [apply IH; assumption|]. remember (s0 :: src0) as src eqn:Es.
  assert (Fn : Forall (fun t => forall x y, In x (all ++ src) -> In y t -> x < y) r).
  { rewrite Forall_forall in *. intros t T x y X Y. apply in_app_or in X as [X|X]; [apply (F t T x y X Y)|apply (A1 t T x y X Y)]. }
  destruct all as [|d0 all0]; [cbn [bind app] in *; apply IH; assumption|]. remember (d0 :: all0) as all eqn:Ea.
  rewrite (insert_gap all src all []); [|rewrite Ea; discriminate|rewrite Es; discriminate|split; [rewrite app_nil_r; reflexivity|split; [exact F1|split; [intros x y []|cbn; lia]]]].
  cbn [bind]. rewrite app_nil_r, IH by assumption. rewrite <- app_assoc. reflexivity.
Qed.
