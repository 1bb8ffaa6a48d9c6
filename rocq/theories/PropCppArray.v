(** * C62-C66: dro::Array, dro::String, dro::SizedString *)
From Coq Require Import Sorting.Permutation.
From Verif Require Import CBase CBaseFacts CppArrayModel CppArraySpec CppArrayProofs.

(** ** C62: arrays are values *)

(** Whatever a program does with arrays (short of assigning one to itself),
    nothing undefined happens and it sees what independent values would show. *)
Theorem C62_values_partial : forall prog rs v', vrun [] prog rs v' -> exists s', run mach0 prog = OK (s', rs).
Proof. intros prog rs v' R. destruct (run_ok prog mach0 [] rs v' inv0 R) as (s' & Q & _). eauto. Qed.

(** The value semantics covers every permitted operation. *)
Theorem C62_all_operations : forall v o, permitted v o -> exists r v', vstep v o r v'.
Proof.
  intros v o P. destruct o; cbn [permitted] in P; try contradiction.
  - eexists _, _. apply V_new.
  - eexists _, _. apply V_adopt.
  - eexists _, _. apply V_default.
  - destruct P as (o & N & G). eexists _, _. eapply V_move_new; eauto.
  - destruct P as (o & N & G). eexists _, _. eapply V_copy_new; eauto.
  - destruct P as (Ai & (o & N & G) & D). eexists _, _. eapply V_move_to; eauto.
  - destruct P as (Ai & (o & N & G) & D). eexists _, _. eapply V_copy_to; eauto.
  - destruct P as (o & N & G). destruct (nth_error (values o) k) as [x|] eqn:Q.
    + eexists _, _. eapply V_get; eauto.
    + eexists _, _. eapply V_get_range; eauto. apply nth_error_None. exact Q.
  - destruct P as (o & N & G). destruct (Nat.lt_ge_cases k (length (values o))) as [L|L].
    + destruct o as [| |c]; cbn [values length] in L; try lia. eexists _, _. eapply V_set; eauto.
    + eexists _, _. eapply V_set_range; eauto.
  - destruct P as (o & N & G). eexists _, _. eapply V_size; eauto.
  - destruct P as ((o & N & G) & (p & N' & G')). eexists _, _.
    apply (V_equal v i j o p (if list_eq_dec Z.eq_dec (values o) (values p) then true else false)); auto.
    destruct (list_eq_dec Z.eq_dec (values o) (values p)); split; auto; discriminate.
  - destruct P as (o & N & G). eexists _, _. eapply V_destroy; eauto.
Qed.

(** What is missing: [a = a] loses the values and [a = std::move(a)] empties
    the array. *)
Theorem C62_self_assignment_refuted : forall x c, x <> JUNK ->
  (exists s, run mach0 [Adopt (x :: c); CopyTo 0 0; Get 0 0] = OK (s, [Nothing; Nothing; Value JUNK])) /\
  (exists s, run mach0 [Adopt (x :: c); MoveTo 0 0; SizeOf 0] = OK (s, [Nothing; Nothing; Size 0])).
Proof. intros x c _. split; eexists; cbn; rewrite ?Nat.sub_0_r; reflexivity. Qed.

(** A view ([Array(data, size, false)]) of a part of an array shows and
    changes the elements of that array, throws outside of its own part, and
    its end leaves the array as it is. *)
Lemma run_app p : forall q s s1 r1, run s p = OK (s1, r1) -> run s (p ++ q) = (do ' (s2, r2) <- run s1 q; OK (s2, r1 ++ r2)).
Proof.
  induction p as [|o p IH]; intros q s s1 r1 E; cbn [run app] in *.
  - injection E as <- <-. destruct (run s q) as [[a b]| | ]; reflexivity.
  - destruct (step s o) as [[s2 r]| | ]; cbn [bind] in *; try discriminate. destruct (run s2 p) as [[s3 rs]| | ] eqn:E2; cbn [bind] in *; try discriminate. injection E as <- <-. rewrite (IH _ _ _ _ E2). destruct (run s3 q) as [[a b]| | ]; reflexivity.
Qed.
Inductive runs_list : mach -> list op -> list seen -> mach -> Prop :=
| RL_done s : runs_list s [] [] s
| RL_step s o r s' t rs s'' : step s o = OK (s', r) -> runs_list s' t rs s'' -> runs_list s (o :: t) (r :: rs) s''.
Lemma run_list s p rs s' : runs_list s p rs s' -> run s p = OK (s', rs).
Proof. induction 1; cbn [run]; [reflexivity|]. rewrite H. cbn [bind]. rewrite IHruns_list. reflexivity. Qed.
Theorem C62_view : forall prog rs v j c off n k x y, vrun [] prog rs v -> nth_error v j = Some (Holds c) -> off + n <= length c -> k < n -> nth_error c (off + k) = Some x ->
  let w := length v in
  exists s, run mach0 (prog ++ [View j off n; SizeOf w; Get w k; Get w n; Set_ w k y; Get w k; Set_ w n y; Destroy w; SizeOf j; Get j (off + k); Destroy j]) =
            OK (s, rs ++ [Nothing; Size n; Value x; Thrown; Nothing; Value y; Thrown; Nothing; Size (length c); Value y; Nothing]).
Proof.
  intros prog rs v j c off n k x y R Q Lc Lk Qx w. destruct (run_ok prog mach0 [] rs v inv0 R) as (s & E & (L & Rp & _) & _).
  pose proof (nth_lt _ _ _ Q) as Lj. rewrite <- L in Lj. destruct (nth_error (m_objs s) j) as [o|] eqn:Qo; [|apply nth_error_None in Qo; lia]. destruct (Rp _ _ _ Qo Q) as (b & -> & Qb).
  rewrite (run_app _ _ _ _ _ E). destruct s as [h os]. cbn [m_heap m_objs] in *. pose proof (nth_lt _ _ _ Qb) as Lb.
  set (a := {| a_data := Some (b, 0); a_size := length c; a_del := true |}) in *. set (vw := {| a_data := Some (b, 0 + off); a_size := n; a_del := false |}).
  assert (Gj : forall h os, nth_error os j = Some (Some a) -> obj {| m_heap := h; m_objs := os |} j = OK a) by (intros h0 os0 Q0; unfold obj; cbn [m_objs]; rewrite (proj2 (aget_OK _ _ _) Q0); reflexivity).
  assert (Gw : forall h, obj {| m_heap := h; m_objs := os ++ [Some vw] |} w = OK vw) by (intros h0; unfold obj; cbn [m_objs]; rewrite (proj2 (aget_OK _ _ (Some vw))); [reflexivity|]; unfold w; rewrite <- L, nth_error_app2, Nat.sub_diag by lia; reflexivity).
  set (c' := replace c (off + k) y). set (h' := replace h b (Some c')).
  assert (Qb' : nth_error h' b = Some (Some c')) by (apply nth_replace_eq; exact Lb).
  assert (Lc' : length c' = length c) by apply replace_length.
  assert (Qy : nth_error c' (off + k) = Some y) by (apply nth_replace_eq; lia).
  assert (Wr : h_write h (Some (b, 0 + off)) k y = OK h'). { unfold h_write. rewrite (proj2 (aget_OK _ _ _) Qb). cbn [bind]. rewrite aset_replace by lia. cbn [bind]. apply aset_replace. exact Lb. }
  assert (Rd : h_read h (Some (b, 0 + off)) k = OK x). { unfold h_read. rewrite (proj2 (aget_OK _ _ _) Qb). cbn [bind]. apply aget_OK. exact Qx. }
  assert (Rd' : h_read h' (Some (b, 0 + off)) k = OK y). { unfold h_read. rewrite (proj2 (aget_OK _ _ _) Qb'). cbn [bind]. apply aget_OK. exact Qy. }
  assert (In_ : (n =? 0) || (n - 1 <? k) = false) by (apply orb_false_intro; [apply Nat.eqb_neq|apply Nat.ltb_ge]; lia).
  assert (Out : (n =? 0) || (n - 1 <? n) = true) by (apply orb_true_iff; right; apply Nat.ltb_lt; lia).
  assert (In2 : (length c =? 0) || (length c - 1 <? off + k) = false) by (apply orb_false_intro; [apply Nat.eqb_neq|apply Nat.ltb_ge]; lia).
  assert (Qo' : nth_error (replace (os ++ [Some vw]) w None) j = Some (Some a)). { rewrite nth_replace_neq by (unfold w; lia). rewrite nth_error_app1 by exact Lj. exact Qo. }
  eexists. erewrite run_list; [reflexivity|].
  eapply RL_step. { cbn [step]. rewrite (Gj _ _ Qo). reflexivity. }
  unfold add_obj. cbn [a_data a option_map fst snd m_heap m_objs]. fold vw.
  eapply RL_step. { cbn [step]. rewrite Gw. reflexivity. }
  eapply RL_step. { cbn [step]. rewrite Gw. cbn [bind]. unfold arr_get. cbn [a_size a_data vw]. rewrite In_. cbn [m_heap]. rewrite Rd. reflexivity. }
  eapply RL_step. { cbn [step]. rewrite Gw. cbn [bind]. unfold arr_get. cbn [a_size a_data vw]. rewrite Out. reflexivity. }
  eapply RL_step. { cbn [step]. rewrite Gw. cbn [bind]. unfold arr_set. cbn [a_size a_data vw]. rewrite In_. cbn [m_heap]. rewrite Wr. reflexivity. }
  cbn [m_objs].
  eapply RL_step. { cbn [step]. rewrite Gw. cbn [bind]. unfold arr_get. cbn [a_size a_data vw]. rewrite In_. cbn [m_heap]. rewrite Rd'. reflexivity. }
  eapply RL_step. { cbn [step]. rewrite Gw. cbn [bind]. unfold arr_set. cbn [a_size a_data vw]. rewrite Out. reflexivity. }
  cbn [m_objs m_heap].
  eapply RL_step. { cbn [step]. rewrite Gw. cbn [bind arr_destroy a_data a_del vw]. unfold set_obj. cbn [m_objs m_heap]. rewrite aset_replace by (rewrite app_length; unfold w; cbn; lia). reflexivity. }
  cbn [m_objs m_heap].
  eapply RL_step. { cbn [step]. rewrite (Gj _ _ Qo'). reflexivity. }
  eapply RL_step. { cbn [step]. rewrite (Gj _ _ Qo'). cbn [bind]. unfold arr_get. cbn [a_size a_data a]. rewrite In2. cbn [m_heap]. rewrite (read_holds _ _ _ _ _ Qb' Qy). reflexivity. }
  eapply RL_step. { cbn [step]. rewrite (Gj _ _ Qo'). cbn [bind arr_destroy a_data a_del a m_heap]. unfold h_free. cbn [fst snd]. rewrite (proj2 (aget_OK _ _ _) Qb'). cbn [bind]. change (0 =? 0) with true. cbv iota.
    rewrite aset_replace by (eapply nth_lt; eauto). cbn [bind]. unfold set_obj. cbn [m_objs m_heap]. rewrite aset_replace by (eapply nth_lt; exact Qo'). reflexivity. }
  apply RL_done.
Qed.
Example C62_view_hypotheses : exists rs v, vrun [] [Adopt [1; 2; 3; 4]%Z; CopyNew 0] rs v /\ nth_error v 1 = Some (Holds [1; 2; 3; 4]%Z).
Proof. eexists _, _. split; [eapply V_step; [apply V_adopt|]; eapply V_step; [eapply V_copy_new; [reflexivity|discriminate]|]; apply V_done|reflexivity]. Qed.

Example C62_case : exists s, run mach0 [Adopt [1; 2; 3]%Z; CopyNew 0; Set_ 1 0 9%Z; MoveNew 0; Get 1 0; Get 2 0; Get 0 0; Equal 1 2; Destroy 0; Destroy 2; Get 1 2; Destroy 1] =
  OK (s, [Nothing; Nothing; Nothing; Nothing; Value 9; Value 1; Thrown; Truth false; Nothing; Nothing; Value 3; Nothing]%Z).
Proof. eexists. vm_compute. reflexivity. Qed.
Example C62_case_values : exists v, vrun [] [Adopt [1; 2]%Z; CopyNew 0; Set_ 1 0 9%Z; Get 1 0; Get 0 0; Destroy 0] [Nothing; Nothing; Nothing; Value 9; Value 1; Nothing]%Z v.
Proof.
  eexists. eapply V_step; [apply V_adopt|]. eapply V_step; [apply V_copy_new with (o := Holds [1; 2]%Z); [reflexivity|discriminate]|].
  eapply V_step; [eapply V_set; [reflexivity|cbn; lia]|]. eapply V_step; [eapply V_get; [reflexivity|discriminate|reflexivity]|].
  eapply V_step; [eapply V_get; [reflexivity|discriminate|reflexivity]|]. eapply V_step; [eapply V_destroy; [reflexivity|discriminate]|]. apply V_done.
Qed.

(** ** C63: no memory is lost *)

(** When every array of a program is destroyed, all memory has been given
    back, provided no assignment overwrote an array that still held values. *)
Theorem C63_no_leak_partial : forall prog rs v', vrun [] prog rs v' -> no_overwrite [] prog -> Forall (fun o => o = Gone) v' ->
  exists s', run mach0 prog = OK (s', rs) /\ forall b, ~ allocated s' b.
Proof.
  intros prog rs v' R N F. destruct (run_ok prog mach0 [] rs v' inv0 R) as (s' & Q & I & C). exists s'. split; [exact Q|].
  intros b A. destruct (C covered0 N b A) as (j & o & Qo & Oo). destruct I as (L & Rp & _).
  destruct (nth_error v' j) as [w|] eqn:Ew; [|apply nth_error_None in Ew; apply nth_lt in Qo; lia].
  rewrite Forall_forall in F. pose proof (F w (nth_error_In _ _ Ew)) as ->. pose proof (Rp _ _ _ Qo Ew) as Z. cbn in Z. subst o. exact (owns_none b Oo).
Qed.

(** What is missing: an assignment onto an array that holds values leaks
    them. *)
Theorem C63_assignment_leaks_refuted : forall c1 c2,
  (exists s, run mach0 [Adopt c1; Adopt c2; CopyTo 0 1; Destroy 0; Destroy 1] = OK (s, [Nothing; Nothing; Nothing; Nothing; Nothing]) /\ nth_error (m_heap s) 0 = Some (Some c1)) /\
  (exists s, run mach0 [Adopt c1; Adopt c2; MoveTo 0 1; Destroy 0; Destroy 1] = OK (s, [Nothing; Nothing; Nothing; Nothing; Nothing]) /\ nth_error (m_heap s) 0 = Some (Some c1)).
Proof.
  intros c1 c2. split.
  - exists {| m_heap := [Some c1; None; None]; m_objs := [None; None] |}. split; [|reflexivity]. cbn -[arr_copy].
    unfold arr_copy at 1. cbn [a_data a_size]. rewrite (slice_holds [Some c1; Some c2] 1 c2 eq_refl). reflexivity.
  - exists {| m_heap := [Some c1; None]; m_objs := [None; None] |}. split; reflexivity.
Qed.

Example C63_case : exists rs v', vrun [] [Adopt [1]%Z; Default; CopyTo 1 0; MoveNew 0; MoveTo 0 2; Destroy 0; Destroy 1; Destroy 2] rs v' /\
  no_overwrite [] [Adopt [1]%Z; Default; CopyTo 1 0; MoveNew 0; MoveTo 0 2; Destroy 0; Destroy 1; Destroy 2] /\ Forall (fun o => o = Gone) v'.
Proof.
  assert (S1 : vstep [] (Adopt [1]%Z) Nothing [Holds [1]%Z]) by apply (V_adopt []).
  assert (S2 : vstep [Holds [1]%Z] Default Nothing [Holds [1]%Z; Empty]) by apply (V_default [Holds [1]%Z]).
  assert (S3 : vstep [Holds [1]%Z; Empty] (CopyTo 1 0) Nothing [Holds [1]%Z; Holds [1]%Z]).
  { apply (V_copy_to [Holds [1]%Z; Empty] 1 0 (Holds [1]%Z)); [reflexivity|discriminate|exists Empty; split; [reflexivity|discriminate]|discriminate]. }
  assert (S4 : vstep [Holds [1]%Z; Holds [1]%Z] (MoveNew 0) Nothing [Empty; Holds [1]%Z; Holds [1]%Z]).
  { apply (V_move_new [Holds [1]%Z; Holds [1]%Z] 0 (Holds [1]%Z)); [reflexivity|discriminate]. }
  assert (S5 : vstep [Empty; Holds [1]%Z; Holds [1]%Z] (MoveTo 0 2) Nothing [Holds [1]%Z; Holds [1]%Z; Empty]).
  { apply (V_move_to [Empty; Holds [1]%Z; Holds [1]%Z] 0 2 (Holds [1]%Z)); [reflexivity|discriminate|exists Empty; split; [reflexivity|discriminate]|discriminate]. }
  assert (S6 : vstep [Holds [1]%Z; Holds [1]%Z; Empty] (Destroy 0) Nothing [Gone; Holds [1]%Z; Empty]) by (apply (V_destroy [Holds [1]%Z; Holds [1]%Z; Empty] 0 (Holds [1]%Z)); [reflexivity|discriminate]).
  assert (S7 : vstep [Gone; Holds [1]%Z; Empty] (Destroy 1) Nothing [Gone; Gone; Empty]) by (apply (V_destroy [Gone; Holds [1]%Z; Empty] 1 (Holds [1]%Z)); [reflexivity|discriminate]).
  assert (S8 : vstep [Gone; Gone; Empty] (Destroy 2) Nothing [Gone; Gone; Gone]) by (apply (V_destroy [Gone; Gone; Empty] 2 Empty); [reflexivity|discriminate]).
  eexists _, _. split; [|split].
  - repeat (eapply V_step; [eassumption|]). apply V_done.
  - repeat (eapply N_step; [|eassumption|]); try apply N_done.
    all: intros (i & j & c & [Q|Q] & N); try discriminate; injection Q as <- <-; discriminate.
  - repeat constructor.
Qed.

(** ** C64: the time steps of read_timed and read_all_... *)

(** Reading and assigning elements of the returned arrays: each time step is
    a value of its own with the values of that time step. *)
Theorem C64_time_steps : forall data nv T prog rs v', length data = T * nv -> Forall element_op prog ->
  vrun (map Holds (steps_of data nv T)) prog rs v' -> exists s', run (timed_vector data nv T) prog = OK (s', rs).
Proof. intros data nv T prog rs v' L F R. rewrite timed_vector_mach. destruct (timed_run nv T prog data rs v' L F R) as (c' & Q & _). eauto. Qed.

(** Destroying the arrays, in any order, frees the memory exactly once. *)
Theorem C64_freed_once : forall data nv T prog rs v' l, 0 < T -> length data = T * nv -> Forall element_op prog ->
  vrun (map Holds (steps_of data nv T)) prog rs v' -> Permutation l (seq 0 T) ->
  exists s', run (timed_vector data nv T) (prog ++ map Destroy l) = OK (s', rs ++ map (fun _ => Nothing) l) /\ forall b, ~ allocated s' b.
Proof.
  intros data nv T prog rs v' l T0 L F R P. rewrite timed_vector_mach.
  destruct (timed_run nv T prog data rs v' L F R) as (c' & Q & L' & _).
  assert (App : forall p q s s1 r1, run s p = OK (s1, r1) -> run s (p ++ q) = (do ' (s2, r2) <- run s1 q; OK (s2, r1 ++ r2))).
  { clear. induction p as [|o p IH]; intros q s s1 r1 Q; cbn [run app] in *; [injection Q as <- <-; destruct (run s q) as [[? ?]| |]; reflexivity|].
    destruct (step s o) as [[s' r]| |]; cbn [bind] in *; try discriminate. destruct (run s' p) as [[s'' rs]| |] eqn:E; cbn [bind] in *; try discriminate.
    injection Q as <- <-. rewrite (IH q s' s'' rs E). destruct (run s'' q) as [[? ?]| |]; reflexivity. }
  rewrite (App _ _ _ _ _ Q).
  destruct (timed_destroy c' nv T l []) with (h := [Some c']) (os := timed_from (0, 0) nv T 0) as (s' & Q' & D & E).
  - rewrite app_nil_r. apply (Permutation_NoDup (Permutation_sym P)). apply seq_NoDup.
  - intros t. rewrite app_nil_r. split; intros Ht; [apply (Permutation_in _ P), in_seq in Ht; lia|apply (Permutation_in _ (Permutation_sym P)), in_seq; lia].
  - apply timed_from_length.
  - intros t Ht. apply (Permutation_in _ P), in_seq in Ht. rewrite timed_from_nth by lia. reflexivity.
  - intros t [].
  - reflexivity.
  - intros [].
  - unfold timed_mach. rewrite Q'. cbn [bind]. eexists. split; [reflexivity|]. intros b (c & A). rewrite (E T0) in A. destruct b as [|[|b]]; discriminate.
Qed.

(** But they are not values on their own: the first one owns the memory of
    all.  Once it is destroyed, or moved away and that array is destroyed,
    the others dangle. *)
Theorem C64_first_owns_refuted : forall data nv T t k, length data = T * nv -> 0 < t < T -> k < nv ->
  run (timed_vector data nv T) [Destroy 0; Get t k] = UB /\
  run (timed_vector data nv T) [MoveNew 0; Destroy T; Get t k] = UB.
Proof.
  intros data nv T t k L Ht Hk. rewrite timed_vector_mach. unfold timed_mach.
  assert (N0 : nth_error (timed_from (0, 0) nv T 0) 0 = Some (Some {| a_data := Some (0, 0); a_size := nv; a_del := true |})) by (rewrite timed_from_nth by lia; reflexivity).
  assert (Nt : nth_error (timed_from (0, 0) nv T 0) t = Some (Some {| a_data := Some (0, t * nv); a_size := nv; a_del := false |})).
  { rewrite timed_from_nth by lia. cbn [plus fst snd]. destruct (Nat.eqb_spec t 0); [lia|]. reflexivity. }
  pose proof (timed_from_length (0, 0) nv T 0) as Ln. set (os := timed_from (0, 0) nv T 0) in *.
  split.
  - cbn [run step]. unfold obj at 1. cbn [m_objs]. rewrite (proj2 (aget_OK _ _ _) N0). cbn [bind arr_destroy a_data a_del m_heap]. cbn [h_free fst snd aget nth_error bind Nat.eqb aset].
    unfold set_obj. cbn [m_objs m_heap]. rewrite aset_replace by lia. cbn [bind]. unfold obj. cbn [m_objs].
    rewrite (proj2 (aget_OK (replace os 0 None) t _) (eq_trans (nth_replace_neq os 0 t None ltac:(lia)) Nt)). cbn [bind].
    unfold arr_get. cbn [a_size a_data]. rewrite get_range. replace (k <? nv) with true by (symmetry; apply Nat.ltb_lt; exact Hk). reflexivity.
  - cbn [run step]. unfold obj at 1. cbn [m_objs]. rewrite (proj2 (aget_OK _ _ _) N0). cbn [bind arr_move]. unfold set_obj at 1. cbn [m_objs m_heap]. rewrite aset_replace by lia. cbn [bind].
    unfold add_obj. cbn [m_objs m_heap]. set (os1 := replace os 0 _). unfold obj at 1. cbn [m_objs].
    assert (L1 : length os1 = T) by (unfold os1; rewrite replace_length; exact Ln).
    assert (NT : nth_error (os1 ++ [Some {| a_data := Some (0, 0); a_size := nv; a_del := true |}]) T = Some (Some {| a_data := Some (0, 0); a_size := nv; a_del := true |})) by (rewrite nth_error_app2, L1, Nat.sub_diag by lia; reflexivity).
    rewrite (proj2 (aget_OK _ _ _) NT). cbn [bind arr_destroy a_data a_del m_heap]. cbn [h_free fst snd aget nth_error bind Nat.eqb aset].
    unfold set_obj. cbn [m_objs m_heap]. rewrite aset_replace by (rewrite app_length; cbn [length]; lia). cbn [bind]. unfold obj. cbn [m_objs].
    assert (Nt1 : nth_error (replace (os1 ++ [Some {| a_data := Some (0, 0); a_size := nv; a_del := true |}]) T None) t = Some (Some {| a_data := Some (0, t * nv); a_size := nv; a_del := false |})).
    { rewrite nth_replace_neq by lia. rewrite nth_error_app1 by lia. unfold os1. rewrite nth_replace_neq by lia. exact Nt. }
    rewrite (proj2 (aget_OK _ t _) Nt1). cbn [bind].
    unfold arr_get. cbn [a_size a_data]. rewrite get_range. replace (k <? nv) with true by (symmetry; apply Nat.ltb_lt; exact Hk). reflexivity.
Qed.

Example C64_case : exists s, run (timed_vector [1; 2; 3; 4; 5; 6]%Z 2 3) [Get 1 0; Set_ 1 1 9%Z; Get 1 1; Get 2 0; Get 0 1; Get 0 2; Destroy 2; Destroy 0; Destroy 1] =
  OK (s, [Value 3; Nothing; Value 9; Value 5; Value 2; Thrown; Nothing; Nothing; Nothing]%Z) /\ m_heap s = [None].
Proof. eexists. split; vm_compute; reflexivity. Qed.

(** ** C65: comparing strings *)

Theorem C65_string : forall a b, is_cstr a -> is_cstr b -> exists r, string_eq a b = OK r /\ (r = true <-> a = b).
Proof. intros a b Ca Cb. unfold string_eq. destruct (string_eq_from_ok a b Ca Cb (S (length a)) 0 ltac:(lia) ltac:(lia) ltac:(lia)) as (r & Q & R). eauto. Qed.

Theorem C65_sized : forall buf n b, n <= length buf -> is_cstr b -> exists r, sized_eq buf n b = OK r /\ (r = true <-> firstn n buf = b).
Proof.
  intros a n b L Cb. unfold sized_eq. destruct (Nat.eqb_spec n 0) as [->|N].
  - destruct b as [|y b]; [exists true; split; [reflexivity|cbn; tauto]|]. inversion Cb; subst. cbn [cget aget nth_error app bind]. unfold cget, aget. cbn [nth_error app bind]. unfold NUL.
    exists false. destruct (Z.eqb_spec y 0); [lia|]. split; [reflexivity|]. cbn. split; discriminate.
  - destruct (sized_eq_from_ok a n b L Cb (S n) 0 ltac:(lia) ltac:(lia) ltac:(lia)) as (r & Q & R). eauto.
Qed.

Theorem C65_sized_sized : forall a n b m, n <= length a -> m <= length b -> exists r, sized_eq_sized a n b m = OK r /\ (r = true <-> firstn n a = firstn m b).
Proof.
  intros a n b m La Lb. unfold sized_eq_sized. destruct (Nat.eqb_spec n m) as [<-|N]; cbn [negb].
  - destruct (sized_sized_ok a b n La Lb n 0 eq_refl) as (r & Q & R). eauto.
  - exists false. split; [reflexivity|]. split; [discriminate|]. intros Q. apply (f_equal (@length Z)) in Q. rewrite !firstn_length in Q. lia.
Qed.

(** A std::string on the right, as long as it contains no NUL character. *)
Theorem C65_std_partial : forall b, is_cstr b ->
  (forall a, is_cstr a -> exists r, string_eq_std a b = OK r /\ (r = true <-> a = b)) /\
  (forall buf n, n <= length buf -> exists r, sized_eq_std buf n b = OK r /\ (r = true <-> firstn n buf = b)).
Proof.
  intros b Cb. split.
  - intros a Ca. unfold string_eq_std. rewrite (c_str_id b Cb). apply C65_string; assumption.
  - intros buf n L. unfold sized_eq_std. rewrite (c_str_id b Cb). apply C65_sized; assumption.
Qed.

(** What lies behind a NUL character of a std::string is ignored. *)
Theorem C65_std_nul_refuted : forall a t, is_cstr a ->
  string_eq_std a (a ++ NUL :: t) = OK true /\ sized_eq_std a (length a) (a ++ NUL :: t) = OK true.
Proof.
  intros a t Ca. assert (E : c_str (a ++ NUL :: t) = a).
  { clear - Ca. induction a as [|x a IH]; cbn [app c_str]; [reflexivity|]. inversion Ca; subst. unfold NUL at 1. destruct (Z.eqb_spec x 0); [lia|]. f_equal. auto. }
  unfold string_eq_std, sized_eq_std. rewrite E. split.
  - destruct (C65_string a a Ca Ca) as (r & -> & R). f_equal. apply R. reflexivity.
  - destruct (C65_sized a (length a) a (le_n _) Ca) as (r & -> & R). f_equal. apply R. apply firstn_all.
Qed.

(** [String == SizedString] (either order): exactly when the two are equal and
    every character is greater than its position. *)
Theorem C65_mixed_exact : forall a buf m, is_cstr a -> m <= length buf ->
  exists r, mixed_eq a buf m = OK r /\ (r = true <-> a = firstn m buf /\ forall k, k < length a -> (Z.of_nat k < char_to_size (nth k a 0))%Z).
Proof.
  intros a buf m Ca L. unfold mixed_eq. destruct (mixed_from_ok a buf m Ca L (S m) 0 ltac:(lia) ltac:(lia) ltac:(lia)) as (r & Q & R). exists r. split; [exact Q|].
  rewrite R. cbn [skipn]. split; intros (A & B); (split; [exact A|]); intros k Hk; apply B; lia.
Qed.

(** So it is right for printable strings of at most 32 characters ... *)
Theorem C65_mixed_partial : forall a buf m, printable a -> length a <= 32 -> m <= length buf ->
  exists r, mixed_eq a buf m = OK r /\ (r = true <-> a = firstn m buf).
Proof.
  intros a buf m P L Lm. assert (Ca : is_cstr a) by (unfold is_cstr; eapply Forall_impl; [|exact P]; cbn; lia).
  destruct (C65_mixed_exact a buf m Ca Lm) as (r & Q & R). exists r. split; [exact Q|]. rewrite R. split; [tauto|]. intros E. split; [exact E|].
  intros k Hk. unfold printable in P. rewrite Forall_forall in P. specialize (P (nth k a 0%Z) (nth_In _ _ Hk)). unfold char_to_size, schar. destruct (Z.ltb_spec (nth k a 0%Z) 128); [|lia].
  unfold u64. rewrite Z.mod_small by lia. lia.
Qed.

(** ... it never calls different strings equal ... *)
Theorem C65_mixed_sound : forall a buf m, is_cstr a -> m <= length buf -> mixed_eq a buf m = OK true -> a = firstn m buf.
Proof. intros a buf m Ca L Q. destruct (C65_mixed_exact a buf m Ca L) as (r & Q' & R). rewrite Q in Q'. injection Q' as <-. apply R. reflexivity. Qed.

(** ... but it calls equal strings different as soon as the 33rd character is
    a blank (or the 49th a '0', ...). *)
Theorem C65_mixed_refuted : forall a b, is_cstr (a ++ SPACE :: b) -> 32 <= length a ->
  mixed_eq (a ++ SPACE :: b) (a ++ SPACE :: b) (length (a ++ SPACE :: b)) = OK false.
Proof.
  intros a b C L. destruct (C65_mixed_exact (a ++ SPACE :: b) (a ++ SPACE :: b) _ C (le_n _)) as (r & -> & R). destruct r; [|reflexivity].
  exfalso. destruct (proj1 R eq_refl) as (_ & F). specialize (F (length a)). rewrite app_length in F. cbn [length] in F. specialize (F ltac:(lia)).
  rewrite nth_middle in F. change (char_to_size SPACE) with 32%Z in F. lia.
Qed.

Example C65_case : string_eq (bs "nodout") (bs "nodout") = OK true /\ string_eq (bs "nod") (bs "nodout") = OK false /\
  sized_eq (bs "ids   ") 3 (bs "ids") = OK true /\ sized_eq (bs "ids   ") 4 (bs "ids") = OK false /\
  sized_eq_sized (bs "ab") 2 (bs "abc") 2 = OK true /\ mixed_eq (bs "title") (bs "title  ") 5 = OK true /\
  mixed_eq (bs "A title that is a little bit too long") (bs "A title that is a little bit too long") 37 = OK false /\ printable (bs "title").
Proof. repeat split; try (vm_compute; reflexivity). unfold printable. repeat constructor; cbn; lia. Qed.

(** ** C66: element access and iteration of a String *)

Theorem C66_string_at : forall a k, is_cstr a -> string_at a k = OK (match nth_error a k with Some x => Value x | None => Thrown end).
Proof. intros a k Ca. unfold string_at. apply string_at_ok; auto; lia. Qed.

(** A range-for over a String does not stop at its end. *)
Theorem C66_range_for_refuted : forall a, (Z.of_nat (length a) + 2 < 2 ^ 64)%Z -> string_range a (Z.to_nat (2 ^ 64 - 1)) = UB.
Proof. intros a L. unfold string_range. apply range_UB; [|lia]. apply Nat2Z.inj_lt. rewrite Nat2Z.inj_add, Nat.add_0_l, Z2Nat.id by lia. lia. Qed.

Example C66_case : string_at (bs "abc") 2 = OK (Value 99%Z) /\ string_at (bs "abc") 3 = OK Thrown.
Proof. split; vm_compute; reflexivity. Qed.
