(** * Proofs about the objects of Binout's readers *)
From Coq Require Import Permutation.
From Verif Require Import CBase PathModel BinDirModel BinModel TimedModel D3ReadModel CppArrayModel CppArrayProofs OwnModel ReadMemModel ReadMemSpec ReadMemProofs ReadRoomProofs BinMemModel BinMemSpec BinMemProofs PyBinoutModel CppReadModel CppReadSpec CppReadProofs CppBinMemModel CppBinMemSpec.
Open Scope nat_scope.

Lemma error_view_ok h0 h e m others : e <> None -> holds h0 h e others -> shows_error h0 others m h e m (error_view m e).
Proof.
  intros N L. split; [reflexivity|]. split; [exact N|]. split; [reflexivity|]. split; [reflexivity|]. split; [exact L|]. unfold arr_destroy, error_view. cbn. destruct e; reflexivity.
Qed.
Lemma own_message_ok {A} h0 h e others n m : holds h0 h e others -> length m < n ->
  exists h' s, @own_message A h n m = (h', Exception m s) /\ owns_message h0 e others m h' m s.
Proof.
  intros L Lt. unfold own_message. pose proof (leaves_malloc _ _ _ (malloc n) L) as M. pose proof (malloc_room h (malloc n)) as R. destruct (h_malloc h (malloc n)) as [h1 q]. cbn [fst snd] in M, R.
  eexists _, _. split; [reflexivity|]. split; [reflexivity|]. split; [reflexivity|]. cbn [a_data]. split; [eapply leaves_perm; [|exact M]; apply perm_swap|].
  split; [exists q, n; split; [reflexivity|]; split; [unfold malloc in R; rewrite repeat_length in R; exact R|exact Lt]|].
  destruct (leaves_free _ _ _ _ M) as (h2 & E & L2). exists h2. unfold arr_destroy. cbn. split; [exact E|exact L2].
Qed.
Lemma cpp_type_id_ok h0 h e others b path : holds h0 h e others -> alike (get_type_id b path) (cpp_type_id_mem h e b path) (cpp_gives_type h0 others).
Proof.
  intros L. unfold cpp_type_id_mem. pose proof (get_type_id_mem_ok h0 h e b path others L) as R.
  destruct (get_type_id b path) as [[v o]| |], (get_type_id_mem h e b path) as [[[h1 e1] r]| |]; cbn [bind alike] in R |- *; try contradiction; auto. destruct R as (-> & N & H). cbn [snd fst] in *.
  destruct o as [m|]; cbn.
  - apply error_view_ok; [|exact H]. intros Q. apply N in Q. discriminate.
  - rewrite (proj2 N eq_refl) in *. auto.
Qed.
Lemma path_message_len path : length (bs "The path """ ++ path ++ bs """ does not exist") < 256 + length path.
Proof. rewrite !app_length. cbn. lia. Qed.
Lemma simple_message_len path : length (bs "The simple path """ ++ path ++ bs """ can not be found") < 256 + length path.
Proof. rewrite !app_length. cbn. lia. Qed.
Lemma cpp_children_ok h0 h e others b path : holds h0 h e others -> alike (cpp_get_children b path) (cpp_children_mem h b path) (cpp_gives_value h0 e others).
Proof.
  intros L. unfold cpp_get_children, cpp_children_mem. pose proof (get_children_mem_ok h0 h e b path others L) as R.
  destruct (binout_get_children b path) as [o| |], (get_children_mem h b path) as [[[h1 o1] p]| |]; cbn [bind alike] in R |- *; try contradiction; auto. destruct R as (-> & N & H).
  destruct o as [l|].
  - assert (H2 : leaves h0 h1 (p :: e :: others)) by (eapply leaves_perm; [|exact H]; apply perm_swap). destruct (leaves_free_opt _ _ _ _ H2) as (h2 & E & L2). rewrite E. cbn. split; [reflexivity|exact L2].
  - rewrite (proj2 N eq_refl) in H. assert (H2 : holds h0 h1 e others) by (apply leaves_none; eapply leaves_perm; [|exact H]; apply perm_swap).
    destruct (@own_message_ok (list cstr) _ _ _ _ _ _ H2 (path_message_len path)) as (h2 & s & E & O). rewrite E. cbn [alike cpp_gives_value]. exact O.
Qed.
Lemma cpp_real_path_ok h0 h e others b path : holds h0 h e others -> alike (cpp_simple_path b path) (cpp_real_path_mem h b path) (cpp_gives_value h0 e others).
Proof.
  intros L. unfold cpp_simple_path, cpp_real_path_mem. pose proof (simple_mem_ok h0 h e b path others L) as R.
  destruct (simple_path_to_real b path) as [o| |], (simple_path_to_real_mem h b path) as [[[h1 o1] p]| |]; cbn [bind alike] in R |- *; try contradiction; auto. destruct R as (-> & N & H).
  destruct o as [l|].
  - assert (H2 : leaves h0 h1 (p :: e :: others)) by (eapply leaves_perm; [|exact H]; apply perm_swap). destruct (leaves_free_opt _ _ _ _ H2) as (h2 & E & L2). rewrite E. cbn. split; [reflexivity|exact L2].
  - rewrite (proj2 N eq_refl) in H. assert (H2 : holds h0 h1 e others) by (apply leaves_none; eapply leaves_perm; [|exact H]; apply perm_swap).
    destruct (@own_message_ok (cstr * Z * bool) _ _ _ _ _ _ H2 (simple_message_len path)) as (h2 & s & E & O). rewrite E. cbn [alike cpp_gives_value]. exact O.
Qed.

(** ** Arrays *)
Lemma fails_shape old m r : read_fails old m = OK r -> r_error r <> None /\ r_data r = None.
Proof. unfold read_fails. destruct (error_string m); cbn; try discriminate. intros E. injection E as <-. split; [discriminate|reflexivity]. Qed.
Ltac next := match goal with |- bind ?x _ = OK _ -> _ => destruct x; cbn [bind]; try discriminate | |- match ?x with _ => _ end = OK _ -> _ => destruct x; try discriminate | |- (if ?x then _ else _) = OK _ -> _ => destruct x end.
Lemma read_shape b old path t r : binout_read b old path t = OK r -> r_error r <> None /\ r_data r = None \/ r_error r = None /\ r_data r <> None.
Proof.
  unfold binout_read. repeat next; intros E; solve [left; eapply fails_shape; eassumption|injection E as <-; right; split; [reflexivity|discriminate]].
Qed.
Lemma timed_fails_shape vs st m r : timed_fails vs st m = OK r -> t_error r <> None /\ t_data r = None.
Proof. unfold timed_fails. destruct (error_string m); cbn; try discriminate. intros E. injection E as <-. split; [discriminate|reflexivity]. Qed.
Lemma steps_shape b variable vs st tp name : forall ds k data r, read_steps b variable vs st tp name ds k data = OK r ->
  t_error r <> None /\ t_data r = None \/ t_error r = None /\ t_data r <> None /\ t_steps r = st.
Proof.
  induction ds as [|d ds IH]; intros k data r; cbn [read_steps]; [intros E; injection E as <-; right; split; [reflexivity|split; [discriminate|reflexivity]]|].
  repeat next; intros E; try solve [left; eapply timed_fails_shape; eassumption]. eapply IH; eassumption.
Qed.
Lemma timed_shape b variable vs st t r : read_timed b variable vs st t = OK r -> t_error r <> None /\ t_data r = None \/ t_error r = None /\ t_data r <> None /\ (0 < t_steps r)%Z.
Proof.
  unfold read_timed. repeat next; intros E; try solve [left; eapply timed_fails_shape; eassumption]. destruct (steps_shape _ _ _ _ _ _ _ _ _ _ E) as [H|(N & D & ->)]; [left; exact H|right]. split; [exact N|]. split; [exact D|lia].
Qed.
Lemma cpp_read_ok h0 h e others b path t : holds h0 h e others -> alike (cpp_read b path t) (cpp_read_mem h e b path t) (cpp_gives_array h0 others t).
Proof.
  intros L. unfold cpp_read, cpp_read_mem. pose proof (binout_read_mem_ok h0 h e b 0%Z path t others L) as R. pose proof (read_shape b 0 path t) as Sh. pose proof (fun h' e' r p v => binout_read_room h e b 0%Z path t h' e' r p v) as Rm.
  destruct (binout_read b 0 path t) as [r| |], (binout_read_mem h e b 0 path t) as [[[[h1 e1] r1] p]| |]; cbn [bind alike] in R |- *; try contradiction; auto. destruct R as (-> & Ne & Np & H).
  destruct (Sh _ eq_refl) as [(Er & Ed)|(Er & Ed)]; clear Sh.
  - rewrite (proj2 Np Ed) in H. destruct (r_error r) as [m|] eqn:Em; [|congruence]. cbn. apply error_view_ok; [intros Q; apply Ne in Q; congruence|]. apply leaves_none. eapply leaves_perm; [|exact H]. apply perm_swap.
  - rewrite (proj2 Ne Er) in *. destruct p as [p|]; [|exfalso; apply Ed, Np; reflexivity]. rewrite Er. destruct (r_data r) as [d|] eqn:Dd; [|congruence]. cbn. split; [reflexivity|]. split; [reflexivity|]. split.
    + exists (r_size r), d, p. split; [reflexivity|]. split; [reflexivity|]. split; [reflexivity|]. eapply Rm; [reflexivity|exact Dd].
    + split; [exact H|]. assert (H2 : leaves h0 h1 (Some p :: None :: others)) by (eapply leaves_perm; [|exact H]; apply perm_swap). destruct (leaves_free _ _ _ _ H2) as (h2 & E & L2). exists h2. unfold arr_destroy. cbn. split; [exact E|exact L2].
Qed.
Lemma destroy_owners_with h0 rest : forall os h', leaves h0 h' (map a_data (filter a_del os) ++ rest) -> exists h'', destroy_all h' os = OK h'' /\ leaves h0 h'' rest.
Proof.
  induction os as [|a r IH]; intros h' L; [exists h'; auto|]. cbn [destroy_all filter] in *. destruct a as [[p|] n [|]]; cbn [a_data a_del] in *; unfold arr_destroy; cbn [a_data a_del map app] in *.
  - destruct (leaves_free _ _ _ _ L) as (h1 & E & L1). rewrite E. apply IH, L1.
  - cbn [bind]. apply IH, L.
  - cbn [bind]. apply IH. apply leaves_none, L.
  - cbn [bind]. apply IH, L.
Qed.
Lemma cpp_read_timed_ok h0 h e others b path t : holds h0 h e others -> alike (cpp_read_timed b path t) (cpp_read_timed_mem h e b path t) (cpp_gives_rows h0 others t).
Proof.
  intros L. unfold cpp_read_timed, cpp_read_timed_mem. pose proof (read_timed_mem_ok h0 h e b path 0%Z 0%Z t others L) as R. pose proof (timed_shape b path 0 0 t) as Sh.
  destruct (read_timed b path 0 0 t) as [r| |], (read_timed_mem h e b path 0 0 t) as [[[[h1 e1] r1] p]| |]; cbn [bind alike] in R |- *; try contradiction; auto. destruct R as (-> & Ne & Np & H).
  destruct (Sh _ eq_refl) as [(Er & Ed)|(Er & Ed & Ps)]; clear Sh.
  - rewrite (proj2 Np Ed) in H. destruct (t_error r) as [m|] eqn:Em; [|congruence]. cbn. apply error_view_ok; [intros Q; apply Ne in Q; congruence|]. apply leaves_none. eapply leaves_perm; [|exact H]. apply perm_swap.
  - rewrite (proj2 Ne Er) in *. destruct p as [p|]; [|exfalso; apply Ed, Np; reflexivity]. rewrite Er. destruct (t_data r) as [d|] eqn:Dd; [|congruence]. cbn [or_null alike cpp_gives_rows].
    split; [reflexivity|]. split; [reflexivity|]. set (w := Z.to_nat (t_values r * type_size t)). set (T := Z.to_nat (t_steps r)). destruct (timed_objects p w T 0) as (os & Eo & Lo & No).
    assert (Z0 : snd p = 0) by (apply H; right; left; reflexivity). assert (Pt : 0 < T) by (unfold T; lia).
    exists (t_values r), (map (row d w) (seq 0 T)), os, p. split; [reflexivity|]. split; [exact Eo|]. rewrite map_length, seq_length. split; [exact Lo|]. split; [exact Pt|]. split; [exact H|]. split.
    + intros k Lk. specialize (No k Lk). eexists. split; [exact No|]. cbn. rewrite Z0. split; reflexivity.
    + intros os' P. apply destroy_owners_with. eapply leaves_perm; [|exact H].
      assert (Q : Permutation (map a_data (filter a_del os')) [Some p]).
      { eapply Permutation_trans; [apply Permutation_map, filter_perm, P|]. rewrite owners_from.
        - pose proof (No 0 Pt) as N0. destruct os as [|a l]; [discriminate|]. injection N0 as ->. cbn. rewrite Z0, Nat.add_0_r. destruct p as [i j]. cbn in Z0. subst j. apply Permutation_refl.
        - intros k a E. assert (Lk : k < T) by (rewrite <- Lo; apply nth_error_Some; congruence). rewrite No in E by exact Lk. injection E as <-. reflexivity. }
      change (None :: Some p :: others) with ([None] ++ [Some p] ++ others). apply Permutation_sym. eapply Permutation_trans; [apply Permutation_app_tail; exact Q|]. apply perm_swap.
Qed.
