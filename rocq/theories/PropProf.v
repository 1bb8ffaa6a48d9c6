(** * C92, C93: the profiler *)
From Coq Require Import Permutation.
From Verif Require Import CBase CBaseFacts SearchModel CppArrayModel CppArraySpec CppArrayProofs ProfModel ProfSpec ProfProofs ProfRunProofs ProfReportProofs ProfEndProofs.
Open Scope nat_scope.

(** ** C92: the report has the times of the run, and everything is freed *)
Theorem C92_report : forall x calls, idle x -> calls <> [] -> (forall q t, In (q, t) (all_measured calls) -> fits q) ->
  exists x1 n, run_calls x calls = OK x1 /\ forall fuel, n <= fuel ->
    exists x2 r, end_profiling fuel x1 Can_open = OK (x2, Some (map line_of r)) /\ idle x2 /\ report_of calls r.
Proof.
  intros x calls I N Fi. destruct (run_final x calls I) as (x1 & f & E & Fn). destruct (end_ok _ _ _ Fn Fi) as (n & H). exists x1, n. split; [exact E|]. intros fuel L. destruct (H fuel L) as (x2 & r & E2 & I2 & R & _). exists x2, r. split; [|auto]. destruct calls; [congruence|exact E2].
Qed.
(** Without a section there is no report. *)
Theorem C92_no_section : forall x o, idle x -> exists n, forall fuel, n <= fuel -> exists x2, end_profiling fuel x o = OK (x2, None) /\ idle x2.
Proof.
  intros x o (C & T & N & D). exists 0. intros fuel _. unfold end_profiling. rewrite C, T, N. cbn [Nat.eqb]. eexists. split; [reflexivity|]. repeat split; auto.
Qed.
(** Without a file name everything is freed.  If the file cannot be created nothing is lost: the
    state is the one before, for which [C92_report] holds. *)
Theorem C92_no_file : forall x calls, idle x ->
  exists x1 n, run_calls x calls = OK x1 /\ forall fuel, n <= fuel ->
    (exists x2, end_profiling fuel x1 No_name = OK (x2, None) /\ idle x2) /\
    (calls <> [] -> end_profiling fuel x1 Cannot_open = OK (x1, None)).
Proof.
  intros x calls I. destruct (run_final x calls I) as (x1 & f & E & Fn). destruct (end_no_name_ok _ _ _ Fn) as (n & H). exists x1, n. split; [exact E|]. intros fuel L. split; [apply H; exact L|]. intros N.
  destruct Fn as [C W V Mem]. unfold end_profiling. rewrite C. destruct Mem as [(-> & _)|(b & ns & fp & _ & T & M & NE & _)]; [congruence|]. rewrite M. destruct ns; [congruence|reflexivity].
Qed.
(** While a section runs nothing is written and nothing is freed. *)
Theorem C92_still_running : forall x before name t0 t1 inside, idle x ->
  exists x1 k x2, (do x <- run_calls x before; begin_section x name t0 t1) = OK (x1, k) /\ run_calls x1 inside = OK x2 /\ forall fuel o, end_profiling fuel x2 o = OK (x2, None).
Proof.
  intros x before name t0 t1 inside I. destruct (run_final x before I) as (x0 & f & E & [C W V Mem]). rewrite E. cbn [bind].
  assert (HS : exists fp, site x0 None 0 f fp).
  { destruct Mem as [(_ & T & N & -> & _)|(b & ns & fp & _ & T & N & NE & Hb & R & ND & _)].
    - exists []. split; [constructor|]. rewrite C, T, N. split; [reflexivity|constructor].
    - exists (b :: fp). split; [exact ND|]. rewrite C, T, N. split; [reflexivity|]. constructor; assumption. }
  destruct HS as (fp & HS). destruct (enter_ok _ _ _ _ _ name HS W) as (x1 & b & NA & n & NB & fA & s & fB & fpA & fps & fpB & En & Enm & Epr & Hb & RA & RS & RB & Hf & W1 & M1 & Ho & NC & ND).
  unfold begin_section. rewrite C. cbn [bind]. rewrite En. cbn [bind]. rewrite (node_ok _ _ _ _ _ Hb (nth_map_mid _ _ _)). cbn [bind]. rewrite (put_node_ok _ _ _ _ _ _ Hb (nth_map_mid _ _ _)). cbn [bind]. rewrite replace_map_mid.
  eexists _, _. set (n1 := {| p_name := p_name n; p_exec := p_exec n; p_prof := p_prof n; p_subs := p_subs n; p_num := p_num n; p_parent := x_cur x1 |}).
  set (x2 := {| x_heap := replace (x_heap x1) b (Some (map Some (NA ++ n1 :: NB))); x_cur := Some (b, length NA); x_top := x_top x1; x_num := x_num x1 |}).
  inversion ND as [|? ? Nb ND1]; subst x3 l. assert (NbS : ~ In b fps) by (intros J; apply Nb; apply in_or_app; right; apply in_or_app; auto).
  assert (S2 : site x2 (Some name) 0 s fps).
  { split; [eapply NoDup_app_l; eapply NoDup_app_r; eauto|]. cbn [x_cur x2]. exists n1. cbn [x_heap x2].
    split; [exists (map Some (NA ++ n1 :: NB)); cbn [fst snd]; split; [apply CppArrayProofs.nth_replace_eq; eapply nth_len; eauto|apply nth_map_mid]|]. split; [cbn [p_name n1]; congruence|]. split; [exact Epr|].
    split; [|exact NbS]. apply (reps_frame _ _ _ _ _ _ RS). intros c J. apply CppArrayProofs.nth_replace_neq. intros ->. contradiction. }
  assert (Ws : wf s) by (inversion W1 as [f0 _ We]; subst; apply (We (Entry (p_name n) (p_exec n) s)); apply in_or_app; right; left; reflexivity).
  destruct (good_all inside _ _ _ _ _ S2 Ws) as (x3 & s' & fps' & E3 & _ & _ & M3 & _). exists x3. split; [reflexivity|]. split; [exact E3|]. intros fuel o. unfold end_profiling. rewrite (mv_cur _ _ _ _ _ M3). reflexivity.
Qed.
(** With a clock that never goes back every time is between 0 and the time that passed. *)
Theorem C92_own_time : forall name t0 t1 inside e1 e2, ascending (readings (Call name t0 t1 inside e1 e2)) -> (0 <= own_time (Call name t0 t1 inside e1 e2) <= e1 - t1)%Z.
Proof. intros name t0 t1 inside e1 e2 A. destruct (overhead_bounds _ A) as (_ & K). cbn [own_time]. lia. Qed.
Theorem C92_times : forall calls q t, ascending (flat_map readings calls) -> In (q, t) (all_measured calls) -> (0 <= t)%Z.
Proof.
  assert (One : forall c a q t, ascending (readings c) -> In (q, t) (measured a c) -> (0 <= t)%Z).
  { fix IH 1. intros [name t0 t1 inside e1 e2] a q t A. pose proof (C92_own_time _ _ _ _ _ _ A) as O.
    assert (Ai : ascending (flat_map readings inside)) by (cbn [readings] in A; inversion A as [|? ? _ A0]; subst; inversion A0 as [|? ? _ A1]; subst; apply asc_app_inv in A1 as (A1 & _); exact A1).
    assert (K : forall a q, In (q, t) (flat_map (measured a) inside) -> (0 <= t)%Z).
    { clear - IH Ai. intros a q. induction inside as [|c l IHl]; intros I; [destruct I|]. cbn [flat_map] in *. apply asc_app_inv in Ai as (A1 & A2 & _). apply in_app_or in I as [I|I]; [apply (IH _ _ _ _ A1 I)|apply IHl; assumption]. }
    cbn [measured]. destruct (same_name a name); [apply K|]. intros [[= <- <-]|I]; [exact (proj1 O)|]. apply in_map_iff in I as ([q' t'] & [= <- <-] & I). apply (K _ _ I). }
  intros calls q t A I. unfold all_measured in I. apply in_flat_map in I as (c & Ic & I). apply in_split in Ic as (l1 & l2 & ->). rewrite flat_map_app in A. cbn [flat_map] in A. apply asc_app_inv in A as (_ & A & _). apply asc_app_inv in A as (A & _). apply (One _ _ _ _ A I).
Qed.

(** ** C93: how the report looks *)
(** The outermost sections are in order, the one with the most time first. *)
Theorem C93_order_partial : forall x calls, idle x -> calls <> [] -> (forall q t, In (q, t) (all_measured calls) -> fits q) ->
  exists x1 n, run_calls x calls = OK x1 /\ forall fuel, n <= fuel ->
    exists x2 r, end_profiling fuel x1 Can_open = OK (x2, Some (map line_of r)) /\ report_of calls r /\ descending (outermost r).
Proof.
  intros x calls I N Fi. destruct (run_final x calls I) as (x1 & f & E & Fn). destruct (end_ok _ _ _ Fn Fi) as (n & H). exists x1, n. split; [exact E|]. intros fuel L. destruct (H fuel L) as (x2 & r & E2 & I2 & R & D). exists x2, r. split; [|auto]. destruct calls; [congruence|exact E2].
Qed.
(** The column with the name has 40 characters; a name that is short enough is complete. *)
Theorem C93_column : forall q, length (column q) = 40 /\
  (length q - 1 + length (last q []) <= 40 -> exists rest, column q = repeat 45%Z (length q - 1) ++ last q [] ++ rest).
Proof.
  intros q. unfold column. split; [apply firstn_length_le; rewrite !app_length; cbn [length]; rewrite !repeat_length; lia|]. intros L. rewrite app_assoc, firstn_app. rewrite firstn_all2 by (rewrite app_length, repeat_length; lia). rewrite <- app_assoc. eauto.
Qed.

(** *** Examples *)
Definition sa : cstr := [97%Z].
Definition sb : cstr := [98%Z].
Definition sx : cstr := [120%Z].
Definition sy : cstr := [121%Z].
(** b() calls x() and y(), which calls itself; a() is called later and again. *)
Definition prog1 : list call :=
  [Call sb 0 1 [Call sx 2 3 [] 4 5; Call sy 5 6 [Call sy 7 8 [] 20 21] 30 31] 32 33; Call sa 40 41 [] 141 142; Call sb 150 151 [Call sx 152 153 [] 154 155] 160 161].
Example C92_nonvacuous : idle ctx0 /\ ascending (flat_map readings prog1) /\ (forall q t, In (q, t) (all_measured prog1) -> fits q) /\
  all_measured prog1 = [([sb], 25); ([sb; sx], 1); ([sb; sy], 22); ([sa], 100); ([sb], 7); ([sb; sx], 1)]%Z /\
  (do x1 <- run_calls ctx0 prog1; do ' (_, o) <- end_profiling 50 x1 Can_open; OK o) = OK (Some (map line_of [([sa], 100); ([sb], 32); ([sb; sx], 2); ([sb; sy], 22)]%Z)) /\
  column [sb; sx] = [45; 120; 32]%Z ++ repeat 46%Z 37.
Proof.
  split; [repeat split; intros b (a & H); destruct b; discriminate|]. split; [repeat (constructor; [cbn [flat_map readings app In]; intros y H; lia|]); constructor|].
  split; [intros q t I; vm_compute in I; repeat (destruct I as [[= <- <-]|I]; [unfold fits; cbn; lia|]); destruct I|]. repeat split; vm_compute; reflexivity.
Qed.
(** The sections inside of another one are not in the order of their times: here 2 comes
    before 22. *)
Theorem C93_inner_order_refuted : exists calls x1 x2 before after q t1 t2, (forall q t, In (q, t) (all_measured calls) -> fits q) /\ run_calls ctx0 calls = OK x1 /\
  end_profiling 50 x1 Can_open = OK (x2, Some (map line_of (before ++ (q ++ [sx], t1) :: (q ++ [sy], t2) :: after))) /\ report_of calls (before ++ (q ++ [sx], t1) :: (q ++ [sy], t2) :: after) /\ (t1 < t2)%Z.
Proof.
  assert (I0 : idle ctx0) by apply C92_nonvacuous. assert (F0 : forall q t, In (q, t) (all_measured prog1) -> fits q) by apply C92_nonvacuous.
  exists prog1. destruct (run_calls ctx0 prog1) as [x1| |] eqn:E1; [|vm_compute in E1; discriminate..]. exists x1. destruct (end_profiling 50 x1 Can_open) as [[x2 o]| |] eqn:E2; [|vm_compute in E1; injection E1 as <-; vm_compute in E2; discriminate..].
  exists x2, [([sa], 100%Z); ([sb], 32%Z)], [], [sb], 2%Z, 22%Z. split; [exact F0|]. split; [reflexivity|]. split; [|split; [|lia]].
  - vm_compute in E1. injection E1 as <-. vm_compute in E2. injection E2 as <- <-. vm_compute. reflexivity.
  - cbn [app]. split; [|split].
    + change [([sa], 100%Z); ([sb], 32%Z); ([sb; sx], 2%Z); ([sb; sy], 22%Z)] with (([] ++ [sa], 100%Z) :: [] ++ (([] ++ [sb], 32%Z) :: ((([] ++ [sb]) ++ [sx], 2%Z) :: [] ++ ((([] ++ [sb]) ++ [sy], 22%Z) :: [] ++ [])) ++ [])).
      repeat constructor.
    + cbn. repeat constructor; cbn; intuition discriminate.
    + intros q t. cbn [In]. assert (M : all_measured prog1 = [([sb], 25); ([sb; sx], 1); ([sb; sy], 22); ([sa], 100); ([sb], 7); ([sb; sx], 1)]%Z) by reflexivity. rewrite M. split.
      * intros [[= <- <-]|[[= <- <-]|[[= <- <-]|[[= <- <-]|[]]]]]; (split; [vm_compute; discriminate|reflexivity]).
      * intros (Ht & ->). apply times_in in Ht as (u & I). cbn [In] in I. intuition (match goal with H : _ = (q, u) |- _ => injection H as <- <- end; vm_compute; auto 6).
Qed.
(** A name that does not fit into the buffer of 1024 characters is written behind its end. *)
Theorem C93_long_name_refuted : exists calls x1, run_calls ctx0 calls = OK x1 /\ forall fuel, end_profiling (S (S fuel)) x1 Can_open = UB.
Proof. exists [Call (repeat 97%Z 1024) 0 0 [] 1 1]. eexists. split; [vm_compute; reflexivity|]. intros fuel. lazy. reflexivity. Qed.

Print Assumptions C92_report.
Print Assumptions C92_no_section.
Print Assumptions C92_no_file.
Print Assumptions C92_still_running.
Print Assumptions C92_own_time.
Print Assumptions C92_times.
Print Assumptions C93_order_partial.
Print Assumptions C93_column.
Print Assumptions C92_nonvacuous.
Print Assumptions C93_inner_order_refuted.
Print Assumptions C93_long_name_refuted.
