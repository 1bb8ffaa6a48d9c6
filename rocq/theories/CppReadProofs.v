(** * Proofs about the objects of D3plot's readers *)
From Coq Require Import Permutation.
From Verif Require Import CBase BinModel D3BufModel D3Model D3ReadModel D3PartModel CppPartNodesModel CppTitleModel CppArrayModel CppArrayProofs OwnModel ReadMemModel ReadMemSpec ReadMemProofs ReadRoomProofs CppReadModel CppReadSpec.
Open Scope nat_scope.

(** ** Objects *)
Lemma destroy_owner h h' p qs n : leaves h h' (p :: qs) -> exists h'', arr_destroy h' {| a_data := p; a_size := n; a_del := true |} = OK h'' /\ leaves h h'' qs.
Proof.
  intros L. unfold arr_destroy. cbn [a_data a_del]. destruct p as [p|]; [apply (leaves_free _ _ _ _ L)|].
  exists h'. split; [reflexivity|]. apply leaves_none, L.
Qed.
Lemma some_block h h' ps : leaves h h' ps -> (exists p, In (Some p) ps) -> exists k, length h <= k /\ alive h' k.
Proof.
  intros (_ & B & C & _) (p & I). assert (Ib : In (fst p) (blocks ps)).
  { clear - I. induction ps as [|[x|] r IH]; [contradiction| |]; destruct I as [Q|I]; try discriminate; cbn [blocks].
    - injection Q as ->. left. reflexivity. - right. apply IH, I. - apply IH, I. }
  exists (fst p). split; [apply C, Ib|]. apply B; [apply C|]; exact Ib.
Qed.
Lemma wrap_ok {A} h pl (v : res (plot * list A)) m : keeps pl v -> alike v m (gives_array h) -> alike (or_throw v) (wrap m) (gives_object h).
Proof.
  intros K R. unfold or_throw, wrap, guard. destruct v as [[e l]| |], m as [[[h' e'] [l' p]]| |]; cbn [bind alike gives_array] in R |- *; try contradiction; auto.
  destruct R as (-> & -> & N & L). destruct (K _ _ eq_refl) as (_ & K2). destruct (pl_err e) as [x|] eqn:Ex; cbn.
  - rewrite (proj2 N (K2 ltac:(discriminate))) in L. repeat (split; [reflexivity|]). apply leaves_none, L.
  - eexists. split; [reflexivity|]. split; [reflexivity|]. split; [reflexivity|]. split; [exact L|]. apply destroy_owner, L.
Qed.
Lemma wrap_leaks {A} h (v : res (plot * list A)) m e l x : alike v m (gives_array h) -> v = OK (e, l) -> pl_err e = Some x -> l <> [] ->
  throws_and_leaks h e x (wrap m).
Proof.
  intros R -> Ex Ne. unfold wrap, guard. destruct m as [[[h' e'] [l' p]]| |]; cbn [bind alike gives_array] in R |- *; try contradiction.
  destruct R as (-> & -> & N & L). rewrite Ex. destruct p as [p|]; [|exfalso; apply Ne, N; reflexivity].
  destruct (some_block _ _ _ L) as (k & K1 & K2); [exists p; left; reflexivity|]. exists h', k. auto.
Qed.
Lemma wrap_values h (v : res (plot * option (list Z))) m : (forall e o, v = OK (e, o) -> (o = None <-> pl_err e <> None)) -> alike v m (gives_block h) ->
  alike (or_throw v) (wrap (do x <- m; OK (as_held x))) (gives_values h).
Proof.
  intros K R. unfold or_throw, wrap, guard. destruct v as [[e o]| |], m as [[[h' e'] x]| |]; cbn [bind alike] in R |- *; try contradiction; auto.
  specialize (K _ _ eq_refl). destruct o as [l|], x as [[l' p]|]; cbn [gives_block] in R; try contradiction.
  - destruct R as (-> & -> & L). cbn [as_held bind]. destruct (pl_err e) eqn:Ex; [exfalso; destruct K as (_ & K); specialize (K ltac:(discriminate)); discriminate|].
    cbn. eexists. split; [reflexivity|]. split; [reflexivity|]. split; [reflexivity|]. split; [exact L|]. apply destroy_owner, L.
  - destruct R as (-> & L). cbn [as_held bind]. destruct (pl_err e) eqn:Ex; [|exfalso; apply (proj1 K); reflexivity]. cbn. repeat (split; [reflexivity|]). exact L.
Qed.

(** ** Errors *)
Lemma read_bytes_err pl n pos e o : pl_err pl = None -> read_bytes_at pl n pos = OK (e, o) -> (o = None <-> pl_err e <> None) /\ pl_cd e = pl_cd pl /\ pl_states e = pl_states pl.
Proof.
  intros E0 Eb. unfold read_bytes_at in Eb. destruct (read_words_at _ _ _) as [[[b p] w]| |]; try discriminate. cbn [bind] in Eb. destruct (pointer_close b p); try discriminate. cbn [bind] in Eb.
  destruct (d_err b); injection Eb as <- <-; cbn; (split; [split; congruence|split; reflexivity]).
Qed.
Lemma read_at_err pl n pos e o : pl_err pl = None -> read_at pl n pos = OK (e, o) -> (o = None <-> pl_err e <> None) /\ pl_cd e = pl_cd pl /\ pl_states e = pl_states pl.
Proof.
  intros E0 E. unfold read_at in E. destruct (read_bytes_at pl n pos) as [[pl2 d2]| |] eqn:Eb; try discriminate. cbn [bind] in E. injection E as <- <-.
  destruct (read_bytes_err _ _ _ _ _ E0 Eb) as (K & C). split; [|exact C]. rewrite <- K. destruct d2; split; congruence.
Qed.
Lemma node_words_err pl state k e o : node_words pl state k = OK (e, o) -> (o = None <-> pl_err e <> None).
Proof.
  unfold node_words. destruct (_ =? 0)%Z; [intros E; injection E as <- <-; cbn; split; [discriminate|reflexivity]|].
  destruct (state_at _ _); [|intros E; injection E as <- <-; cbn; split; [discriminate|reflexivity]]. intros E. apply (read_at_err (clear pl) _ _ _ _ eq_refl E).
Qed.
Lemma node_data_err pl state k e o : node_data pl state k = OK (e, o) -> (o = None <-> pl_err e <> None).
Proof.
  unfold node_data. destruct (node_words pl state k) as [[e1 o1]| |] eqn:E1; cbn [bind]; try discriminate. intros E. injection E as <- <-.
  rewrite <- (node_words_err _ _ _ _ _ E1). destruct o1; split; congruence.
Qed.
Lemma all_times_err : forall l pl e o, pl_err pl = None -> all_times pl l = OK (e, o) -> (forall e' v, read_at pl 1 v = OK (e', Some []) -> False) -> pl_err e <> None -> o = None.
Proof.
  induction l as [|s r IH]; intros pl e o E0 E Nn X; cbn [all_times] in E; [injection E as <- <-; congruence|].
  destruct (read_at pl 1 _) as [[e1 [d|]]| |] eqn:Er; cbn [bind] in E; try discriminate; [|injection E as <- <-; reflexivity].
  destruct (read_at_err _ _ _ _ _ E0 Er) as (K & _). assert (E1 : pl_err e1 = None) by (destruct (pl_err e1); [exfalso; destruct K as (_ & K); specialize (K ltac:(discriminate)); discriminate|reflexivity]).
  destruct d as [|v d]; [injection E as <- <-; reflexivity|]. destruct (all_times e1 r) as [[e2 o2]| |] eqn:Ea; cbn [bind] in E; try discriminate. injection E as <- <-.
  rewrite (IH e1 e2 o2 E1 Ea); [reflexivity| |exact X]. intros e' v' Q. apply read_at_len in Q. discriminate.
Qed.
Lemma all_words_err k : forall l pl e o, pl_err pl = None -> all_node_words pl k l = OK (e, o) -> (o = None <-> pl_err e <> None) /\ pl_cd e = pl_cd pl /\ pl_states e = pl_states pl.
Proof.
  induction l as [|s r IH]; intros pl e o E0 E; cbn [all_node_words] in E; [injection E as <- <-; split; [split; congruence|auto]|].
  destruct (read_at pl _ _) as [[e1 [d|]]| |] eqn:Er; cbn [bind] in E; try discriminate.
  - destruct (read_at_err _ _ _ _ _ E0 Er) as (K & C1 & C2). assert (E1 : pl_err e1 = None) by (destruct (pl_err e1); [exfalso; destruct K as (_ & K); specialize (K ltac:(discriminate)); discriminate|reflexivity]).
    destruct (all_node_words e1 k r) as [[e2 o2]| |] eqn:Ea; cbn [bind] in E; try discriminate. injection E as <- <-. destruct (IH _ _ _ E1 Ea) as (Q & Q1 & Q2).
    split; [rewrite <- Q; destruct o2; split; congruence|]. split; congruence.
  - injection E as <- <-. destruct (read_at_err _ _ _ _ _ E0 Er) as (K & C). auto.
Qed.
Lemma all_node_data_err pl k e o : read_all_node_data pl k = OK (e, o) -> (o = None <-> pl_err e <> None) /\ pl_cd e = pl_cd pl /\ pl_states e = pl_states pl.
Proof.
  unfold read_all_node_data. destruct (all_node_words (clear pl) k (pl_states (clear pl))) as [[e1 o1]| |] eqn:E1; cbn [bind]; try discriminate. intros E. injection E as <- <-.
  destruct (all_words_err _ _ (clear pl) _ _ eq_refl E1) as (Q & C). split; [|exact C]. rewrite <- Q. destruct o1; split; congruence.
Qed.

(** ** Times and titles *)
Lemma ok_err pl n pos e d : pl_err pl = None -> read_at pl n pos = OK (e, Some d) -> pl_err e = None.
Proof. intros E0 Er. destruct (read_at_err _ _ _ _ _ E0 Er) as (K & _). destruct (pl_err e); [|reflexivity]. destruct K as (_ & K). specialize (K ltac:(discriminate)). discriminate. Qed.
Lemma all_times_result : forall l pl e o, pl_err pl = None -> all_times pl l = OK (e, o) -> o = None <-> pl_err e <> None.
Proof.
  induction l as [|s r IH]; intros pl e o E0 E; cbn [all_times] in E; [injection E as <- <-; split; congruence|].
  destruct (read_at pl 1 _) as [[e1 [d|]]| |] eqn:Er; cbn [bind] in E; try discriminate; [|injection E as <- <-; exact (proj1 (read_at_err _ _ _ _ _ E0 Er))].
  pose proof (ok_err _ _ _ _ _ E0 Er) as E1. pose proof (read_at_len _ _ _ _ _ Er) as Ld. destruct d as [|v d]; [discriminate|].
  destruct (all_times e1 r) as [[e2 o2]| |] eqn:Ea; cbn [bind] in E; try discriminate. injection E as <- <-. rewrite <- (IH e1 e2 o2 E1 Ea). destruct o2; split; congruence.
Qed.
Lemma read_all_time_result pl : forall e o, all_times (clear pl) (pl_states (clear pl)) = OK (e, o) -> (o = None <-> pl_err e <> None).
Proof. intros e o. apply all_times_result. reflexivity. Qed.
Lemma object_end {A} h h' (l : list A) p : leaves h h' [p] -> exists h'', arr_destroy h' (snd (object (l, p))) = OK h'' /\ leaves_nothing h h''.
Proof. apply destroy_owner. Qed.
Lemma cpp_times_ok h pl : alike (or_throw (read_all_time pl)) (cpp_read_all_time h pl) (gives_object h).
Proof.
  unfold cpp_read_all_time, wrap, guard, or_throw, read_all_time, read_all_time_mem. pose proof (leaves_refl h) as L0. mal L0.
  destruct (all_times (clear pl) (pl_states (clear pl))) as [[e o]| |] eqn:Ea; cbn [bind alike]; auto. pose proof (read_all_time_result _ _ _ Ea) as K. destruct o as [l|].
  - cbn [bind as_held]. destruct (pl_err e) as [x|] eqn:Ex; [exfalso; destruct K as (_ & K); specialize (K ltac:(discriminate)); discriminate|]. cbn. eexists. split; [reflexivity|]. split; [reflexivity|]. split; [reflexivity|]. split; [exact M|]. apply destroy_owner, M.
  - destruct (leaves_free _ _ _ _ M) as (h2 & E & L). rewrite E. cbn [bind as_held]. destruct (pl_err e) as [x|] eqn:Ex; [|exfalso; apply (proj1 K); reflexivity]. cbn. repeat (split; [reflexivity|]). exact L.
Qed.
Lemma cpp_title_ok h pl : alike (cpp_read_title pl) (cpp_read_title_mem h pl) (gives_object h).
Proof.
  unfold cpp_read_title, cpp_read_title_mem, guard, or_throw, read_title, read_title_mem. pose proof (leaves_refl h) as L0. mal L0. change (pl_buf (clear pl)) with (pl_buf pl) in *. change (pl_ptr (clear pl)) with (pl_ptr pl) in *.
  destruct (read_bytes_at (clear pl) 10 (pl_ptr pl K_TITLE)) as [[e o]| |] eqn:Ea; cbn [bind alike]; auto. pose proof (proj1 (read_bytes_err (clear pl) _ _ _ _ eq_refl Ea)) as K. destruct o as [l|].
  - cbn [bind or_null]. destruct (pl_err e) as [x|] eqn:Ex; [exfalso; destruct K as (_ & K); specialize (K ltac:(discriminate)); discriminate|]. destruct (trim l) as [t| |]; cbn; auto.
    eexists. split; [reflexivity|]. split; [reflexivity|]. split; [reflexivity|]. split; [exact M|]. apply destroy_owner, M.
  - destruct (leaves_free _ _ _ _ M) as (h2 & E & L). rewrite E. cbn [bind]. destruct (pl_err e) as [x|] eqn:Ex; [|exfalso; apply (proj1 K); reflexivity]. cbn. repeat (split; [reflexivity|]). exact L.
Qed.
(** The objects that own something end, in any order. *)
Lemma destroy_owners h : forall os h', leaves h h' (map a_data (filter a_del os)) -> exists h'', destroy_all h' os = OK h'' /\ leaves_nothing h h''.
Proof.
  induction os as [|a r IH]; intros h' L; [exists h'; auto|]. cbn [destroy_all filter] in *. destruct a as [[p|] n [|]]; cbn [a_data a_del] in *; unfold arr_destroy; cbn [a_data a_del map] in *.
  - destruct (leaves_free _ _ _ _ L) as (h1 & E & L1). rewrite E. apply IH, L1.
  - cbn [bind]. apply IH, L.
  - cbn [bind]. apply IH. apply leaves_none, L.
  - cbn [bind]. apply IH, L.
Qed.
Lemma filter_perm {A} (f : A -> bool) l l' : Permutation l l' -> Permutation (filter f l) (filter f l').
Proof.
  induction 1; cbn [filter]; [constructor|destruct (f x); [constructor|]; assumption|destruct (f y), (f x); try apply Permutation_refl; constructor|eapply Permutation_trans; eassumption].
Qed.
Lemma destroy_any_order h h' os os' : leaves h h' (map a_data (filter a_del os)) -> Permutation os' os -> exists h'', destroy_all h' os' = OK h'' /\ leaves_nothing h h''.
Proof. intros L P. apply destroy_owners. eapply leaves_perm; [|exact L]. apply Permutation_map, filter_perm, Permutation_sym, P. Qed.
Lemma titles_err h pl : forall h' e o, read_part_titles_mem h pl = OK (h', e, o) -> (o = None <-> pl_err e <> None).
Proof.
  intros h' e o. unfold read_part_titles_mem. destruct (h_malloc _ _) as [h0 q0]. destruct (Z.to_nat _) as [|n]; [discriminate|]. destruct (h_malloc _ _) as [h1 q1]. destruct (read_words_at _ _ _) as [[[b p] d]| |]; cbn [bind]; try discriminate.
  match goal with |- bind ?m _ = _ -> _ => destruct m as [[[[h2 c] ps] l]| |]; cbn [bind]; try discriminate end. destruct (pointer_close _ _); cbn [bind]; try discriminate. destruct l as [l|].
  - intros E. injection E as <- <- <-. cbn. split; congruence.
  - destruct (h_free_all _ _); cbn [bind]; try discriminate. destruct (h_free _ _); cbn [bind]; try discriminate. intros E. injection E as <- <- <-. cbn. split; [discriminate|reflexivity].
Qed.
Lemma title_objects_ok : forall l ps, length ps = length l -> title_objects l ps = do r <- trim_all l; OK (map object (combine r ps)).
Proof.
  induction l as [|t l IH]; intros [|p ps] L; try discriminate; [reflexivity|]. cbn [title_objects trim_all]. destruct (trim t) as [x| |]; cbn [bind]; auto. rewrite IH by (injection L as L; exact L). destruct (trim_all l) as [r| |]; reflexivity.
Qed.
Lemma trim_all_len : forall l r, trim_all l = OK r -> length r = length l.
Proof. induction l as [|t l IH]; intros r; cbn [trim_all]; [intros E; injection E as <-; reflexivity|]. destruct (trim t); cbn [bind]; try discriminate. destruct (trim_all l) as [x| |]; cbn [bind]; try discriminate. intros E. injection E as <-. cbn. f_equal. apply IH. reflexivity. Qed.
Lemma objects_shape {A} : forall (r : list (list A)) ps, length ps = length r -> map fst (map object (combine r ps)) = r /\ map a_data (map snd (map object (combine r ps))) = ps /\
  Forall (fun x => a_size (snd x) = length (fst x)) (map object (combine r ps)) /\ filter a_del (map snd (map object (combine r ps))) = map snd (map object (combine r ps)).
Proof.
  induction r as [|x r IH]; intros [|p ps] L; try discriminate; [cbn; auto|]. injection L as L. destruct (IH ps L) as (A1 & A2 & A3 & A4). cbn. rewrite A1, A2, A4. repeat split. constructor; [reflexivity|exact A3].
Qed.
Lemma cpp_part_titles_ok h pl : alike (cpp_read_part_titles pl) (cpp_read_part_titles_mem h pl) (gives_objects h).
Proof.
  unfold cpp_read_part_titles, cpp_read_part_titles_mem, guard, or_throw. pose proof (read_part_titles_mem_ok h pl) as R. pose proof (titles_err h pl) as K.
  destruct (read_part_titles pl) as [[e l]| |], (read_part_titles_mem h pl) as [[[h' e'] o]| |]; cbn [bind alike] in R |- *; try contradiction; auto. specialize (K _ _ _ eq_refl).
  destruct o as [[[l' ps] p]|]; cbn [gives_strings fst snd] in R.
  - destruct R as (-> & -> & Ln & Np & L). destruct (pl_err e) as [x|] eqn:Ex; [exfalso; destruct K as (_ & K); specialize (K ltac:(discriminate)); discriminate|].
    rewrite title_objects_ok by exact Ln. destruct (trim_all l) as [r| |] eqn:Et; cbn [bind alike]; auto. destruct (leaves_free _ _ _ _ L) as (h2 & E & L2). rewrite E. cbn [bind alike gives_objects].
    apply trim_all_len in Et. destruct (objects_shape r ps ltac:(congruence)) as (A1 & A2 & A3 & A4). eexists. split; [reflexivity|]. split; [reflexivity|]. split; [exact A1|]. split; [exact A3|]. split; [rewrite A2; exact L2|].
    intros os' P. eapply destroy_any_order; [|exact P]. rewrite A4, A2. exact L2.
  - destruct R as (-> & -> & L). destruct (pl_err e) as [x|] eqn:Ex; [|exfalso; apply (proj1 K); reflexivity]. cbn. repeat (split; [reflexivity|]). exact L.
Qed.

(** ** Vectors *)
Lemma timed_objects p nv n t0 : exists os, timed_from p nv n t0 = map Some os /\ length os = n /\
  (forall t, t < n -> nth_error os t = Some {| a_data := Some (fst p, snd p + (t0 + t) * nv); a_size := nv; a_del := t0 + t =? 0 |}).
Proof.
  revert t0. induction n as [|n IH]; intros t0; [exists []; split; [reflexivity|split; [reflexivity|lia]]|]. cbn [timed_from]. unfold arr_move; cbn [fst]. destruct (IH (t0 + 1)) as (os & E & L & N).
  eexists (_ :: os). rewrite E. split; [reflexivity|]. split; [cbn; congruence|]. intros [|t] Lt; cbn [nth_error]; [rewrite Nat.add_0_r; reflexivity|]. rewrite N by lia. replace (t0 + 1 + t) with (t0 + S t) by lia. reflexivity.
Qed.
Lemma owners_from : forall os, (forall t a, nth_error os t = Some a -> a_del a = (t =? 0)) -> filter a_del os = firstn 1 os.
Proof.
  intros [|a r] H; [reflexivity|]. cbn [filter firstn]. rewrite (H 0 a eq_refl). cbn. f_equal. assert (H2 : forall t b, nth_error r t = Some b -> a_del b = false) by (intros t b E; rewrite (H (S t) b E); reflexivity). clear H a.
  induction r as [|b r IH]; [reflexivity|]. cbn [filter]. rewrite (H2 0 b eq_refl). apply IH. intros t c E. apply (H2 (S t)), E.
Qed.
Lemma cpp_rows_ok h pl k : few_nodes pl -> alike (or_throw (read_all_node_data pl k)) (cpp_read_all_node_data h pl k) (gives_rows h (Z.to_nat (pl_cd pl NUMNP * 3)) (length (pl_states pl))).
Proof.
  intros F. unfold cpp_read_all_node_data, guard, or_throw. pose proof (read_all_node_data_mem_ok h pl k) as R. pose proof (all_node_data_err pl k) as K. pose proof (fun h' pl' l p => read_all_node_data_room h pl k h' pl' l p F) as Rm.
  destruct (read_all_node_data pl k) as [[e o]| |] eqn:Er, (read_all_node_data_mem h pl k) as [[[h' e'] x]| |]; cbn [bind alike] in R |- *; try contradiction; auto. destruct (K _ _ eq_refl) as (K1 & K2 & K3).
  destruct o as [l|], x as [[l' p]|]; cbn [gives_block] in R; try contradiction.
  - destruct R as (-> & -> & L). destruct (pl_err e) as [x|] eqn:Ex; [exfalso; destruct K1 as (_ & K1); specialize (K1 ltac:(discriminate)); discriminate|]. cbn [bind alike gives_rows]. rewrite K2, K3.
    set (nv := Z.to_nat (pl_cd pl NUMNP * 3)). set (T := length (pl_states pl)). destruct (timed_objects p nv T 0) as (os & Eo & Lo & No). rewrite Eo.
    assert (Z0 : snd p = 0) by (apply L; left; reflexivity).
    exists os, p. split; [reflexivity|]. split; [reflexivity|]. split; [exact Lo|].
    assert (Ll : length l = T * nv).
    { unfold read_all_node_data in Er. destruct (all_node_words (clear pl) k (pl_states (clear pl))) as [[e1 [l1|]]| |] eqn:Ea; cbn [bind] in Er; try discriminate. injection Er as <- <-. rewrite map_length. apply (all_node_words_len k _ (clear pl) _ _ F eq_refl Ea). }
    split; [exact Ll|]. split; [exact L|]. split; [eapply Rm; reflexivity|]. split.
    + intros t Lt. specialize (No t Lt). eexists. split; [exact No|]. cbn. rewrite Z0. split; reflexivity.
    + intros Pt os' P. eapply destroy_any_order; [|exact P]. rewrite owners_from.
      * pose proof (No 0 Pt) as N0. destruct os as [|a r]; [discriminate|]. injection N0 as ->. cbn. rewrite Z0, Nat.add_0_r. destruct p as [i j]. cbn in Z0. subst j. exact L.
      * intros t a E. assert (Lt : t < T) by (rewrite <- Lo; apply nth_error_Some; congruence). rewrite No in E by exact Lt. injection E as <-. reflexivity.
  - destruct R as (-> & L). destruct (pl_err e) as [x|] eqn:Ex; [|exfalso; apply (proj1 K1); reflexivity]. cbn. repeat (split; [reflexivity|]). exact L.
Qed.
(** Without states the block is left to nobody. *)
Lemma cpp_rows_leak h pl k : pl_states pl = [] -> exists h' b, cpp_read_all_node_data h pl k = OK (h', clear pl, Returned ([], [])) /\ length h <= b /\ alive h' b.
Proof.
  intros S0. unfold cpp_read_all_node_data, guard, read_all_node_data_mem. change (pl_states (clear pl)) with (pl_states pl). rewrite S0. cbn [all_node_words length]. pose proof (leaves_refl h) as L0. mal L0. cbn [bind map].
  assert (X : exists k, length h <= k /\ alive h0 k) by (apply (some_block _ _ _ M); exists q; left; reflexivity).
  destruct (_ =? 4)%Z.
  - mal M. destruct (leaves_free h h1 [Some q0] q) as (h2 & E & L2); [eapply leaves_perm; [|exact M0]; apply perm_swap|]. rewrite E. cbn [bind]. cbn. rewrite S0. cbn.
    destruct (some_block _ _ _ L2) as (b & B1 & B2); [exists q0; left; reflexivity|]. exists h2, b. auto.
  - cbn. rewrite S0. cbn. destruct X as (b & B1 & B2). exists h0, b. auto.
Qed.

(** ** Parts *)
Lemma none_all : forall (ps : list (option ptr)) ns, (forall n, In n ns -> n = 0) -> Forall2 (fun q n => q = None <-> n = 0) ps ns -> Forall (fun q => q = None) ps.
Proof.
  intros ps ns H F. induction F as [|q n r ns Q F IH]; [constructor|]. constructor; [apply Q, H; left; reflexivity|]. apply IH. intros m I. apply H. right. exact I.
Qed.
Lemma guard_part h (v : res (plot * part)) m : (forall e p x, v = OK (e, p) -> pl_err e = Some x -> sizes p = sizes no_part) -> alike v m (gives_part h) ->
  alike (or_throw v) (guard (do ' (h, pl, p, ps) <- m; OK (h, pl, (p, ps)))) (gives_part_object h).
Proof.
  intros K R. unfold or_throw, guard. destruct v as [[e p]| |], m as [[[[h' e'] p'] ps]| |]; cbn [bind alike gives_part fst snd] in R |- *; try contradiction; auto.
  destruct R as (-> & -> & L & Sz). specialize (K e p). destruct (pl_err e) as [x|] eqn:Ex; cbn.
  - repeat (split; [reflexivity|]). destruct Sz as [(_ & ->)|F2]; [exact L|]. rewrite (K _ eq_refl eq_refl) in F2. cbn in F2.
    assert (Nn : Forall (fun q => q = @None ptr) ps) by (eapply none_all; [|exact F2]; intros n I; cbn in I; intuition).
    clear - L Nn. revert L. induction Nn as [|q r -> _ IH]; intros L; [exact L|]. apply IH, leaves_none, L.
  - exists ps. split; [reflexivity|]. split; [reflexivity|]. split; [exact L|]. apply free_part_ok, L.
Qed.
(** Errors of the tables are forgotten. *)
Lemma pick_two part_index ids mats : forall i l c, pick part_index ids mats i = OK (l, c) -> length c = length l.
Proof.
  induction mats as [|m r IH]; intros i l c E; cbn [pick] in E; [injection E as <- <-; reflexivity|]. destruct (m =? part_index)%Z; [|eapply IH, E].
  destruct (aget ids i); cbn [bind] in E; try discriminate. destruct (pick part_index ids r (S i)) as [[l1 c1]| |] eqn:Ep; cbn [bind] in E; try discriminate. injection E as <- <-. cbn. f_equal. eapply IH, Ep.
Qed.
Lemma add_elements_forget {A} pl idf elf (mat : A -> Z) k : forall e l c, add_elements_to_part pl idf elf mat k = OK (e, (l, c)) -> length c = length l /\ pl_err e = None.
Proof.
  intros e l c E. unfold add_elements_to_part in E. destruct (idf pl) as [[e1 ids]| |]; cbn [bind] in E; try discriminate. destruct (pl_err e1) eqn:E1; [injection E as <- <- <-; auto|].
  destruct ids as [|i ids]; [injection E as <- <- <-; auto|]. destruct (elf e1) as [[e2 els]| |]; cbn [bind] in E; try discriminate. destruct (pl_err e2) eqn:E2; [injection E as <- <- <-; auto|].
  destruct (pick k (i :: ids) (map mat els) 0) as [[x y]| |] eqn:Ep; cbn [bind] in E; try discriminate. injection E as <- <- <-. split; [eapply pick_two, Ep|exact E2].
Qed.
Lemma read_part_error pl k : forall e p x, read_part pl k = OK (e, p) -> pl_err e = Some x -> sizes p = sizes no_part.
Proof.
  intros e p x E Ex. unfold read_part in E. cbn zeta in E.
  destruct (add_elements_to_part _ _ _ _ _) as [[e1 [a1 c1]]| |] eqn:E1; cbn [bind] in E; try discriminate. destruct (add_elements_forget _ _ _ _ _ _ _ _ E1) as (L1 & _).
  destruct (add_elements_to_part e1 _ _ _ _) as [[e2 [a2 c2]]| |] eqn:E2; cbn [bind] in E; try discriminate. destruct (add_elements_forget _ _ _ _ _ _ _ _ E2) as (L2 & _).
  destruct (add_elements_to_part e2 _ _ _ _) as [[e3 [a3 c3]]| |] eqn:E3; cbn [bind] in E; try discriminate. destruct (add_elements_forget _ _ _ _ _ _ _ _ E3) as (L3 & _).
  destruct (add_elements_to_part e3 _ _ _ _) as [[e4 [a4 c4]]| |] eqn:E4; cbn [bind] in E; try discriminate. destruct (add_elements_forget _ _ _ _ _ _ _ _ E4) as (L4 & N4).
  destruct a1; [destruct a2; [destruct a3; [destruct a4|]|]|]; injection E as <- <-; try congruence.
  unfold sizes. cbn. cbn in L1, L2, L3, L4. rewrite L1, L2, L3, L4. reflexivity.
Qed.
Lemma read_part_by_id_error pl id ids : forall e p x, read_part_by_id pl id ids = OK (e, p) -> pl_err e = Some x -> sizes p = sizes no_part.
Proof.
  intros e p x E Ex. unfold read_part_by_id in E. cbn zeta in E. destruct (match ids with Some l => _ | None => _ end) as [[e1 l]| |]; cbn [bind] in E; try discriminate.
  destruct (pl_err e1); [injection E as <- <-; reflexivity|]. destruct l as [|i l]; [injection E as <- <-; reflexivity|]. match type of E with bind ?x _ = _ => destruct x as [[n|]| |] end; cbn [bind] in E; try discriminate; [|injection E as <- <-; reflexivity].
  eapply read_part_error; eassumption.
Qed.
