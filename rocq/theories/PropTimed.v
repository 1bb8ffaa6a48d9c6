(** * Properties C30, C31, C32 *)
From Coq Require Import Sorting.Sorted.
From Verif Require Import CBase CBaseFacts SearchModel SearchSpec SearchProofs PathModel PathSpec PathProofs
  KeyTableModel KeyTableProofs BinDirModel BinDirSpec BinDirProofs BinModel TimedModel TimedSpec TimedProofs TimedFound.
From Verif Require BinSpec BinProofs.

(** C30: for every history of insertions and every folder whose entries that
    start with 'd' are time steps and that has no variables of its own, the
    number of time steps is the number of its entries named 'd' and digits. *)
Theorem C30_count_partial : forall ops, history_ok ops -> exists dir cur, run [] None ops = OK (dir, cur) /\
  forall b path, b_dir b = dir -> ascii_str path -> absolute path ->
    elements path = [] \/ is_folder_path ops (elements path) -> tidy ops (elements path) ->
    (forall n i, ~ In (elements path ++ [n], i) (records [] ops)) ->
    exists steps, steps_of ops (elements path) steps /\ num_timesteps b path = OK (Some (length steps)).
Proof.
  intros ops H. destruct (history_run ops H) as (dir & cur & E & D). exists dir, cur. split; [exact E|].
  intros b path <- As Ab F T Nv. apply num_timesteps_spec; auto. exact (proj2 (proj2 (proj2 H))).
Qed.

Definition mk (dir : list entry) (files : list (option disk)) : binout := {| b_dir := dir; b_files := files; b_error := None |}.
Definition run_dir (ops : list op) : list entry := match run [] None ops with OK (d, _) => d | _ => [] end.
Ltac history := split; [|split; [|split; [exact I|]]];
  [intros p H; cbn in H; repeat (destruct H as [Q|H]; [try discriminate Q; injection Q as <-; (split; [repeat constructor|]); eexists; eexists; (split; [reflexivity|discriminate])|]); contradiction
  |intros n i H; cbn in H; repeat (destruct H as [Q|H]; [try discriminate Q; injection Q as <- _; repeat constructor|]); contradiction
  |intros q i H (p & P & (r & E)); vm_compute in H, P;
   repeat (destruct H as [H|H]; [injection H as <- _; repeat (destruct P as [P|P]; [rewrite <- P in E; vm_compute in E; discriminate E|]); contradiction|]); contradiction].

(** An entry between two time steps is counted although it is none. *)
Theorem C30_between_refuted : exists ops path, history_ok ops /\ absolute path /\
  steps_of ops (elements path) [bs "d1"; bs "d2"] /\ num_timesteps (mk (run_dir ops) []) path = OK (Some 3).
Proof.
  exists [OpFolder (bs "/a/d1"); OpFolder (bs "/a/d1x"); OpFolder (bs "/a/d2")], (bs "/a"). split; [history|]. split; [eexists; reflexivity|]. split; [|vm_compute; reflexivity].
  split.
  - constructor; [constructor; constructor|constructor; [|constructor]]. right. exists (bs "d"), 49%Z, [], 50%Z, []. repeat split; lia.
  - intros d. split.
    + intros [<-|[<-|[]]]; (split; [eexists; split; [reflexivity|split; [discriminate|(constructor; [vm_compute; split; discriminate|constructor])]]|left]);
        eexists; (split; [|exists []; rewrite app_nil_r; reflexivity]); [left; reflexivity|right; right; left; reflexivity].
    + intros ((t & -> & Nt & Ft) & [(p & P & (r & E))|(i & [])]). vm_compute in P, E. destruct P as [<-|[<-|[<-|[]]]]; vm_compute in E; injection E as <- <-.
      * left. reflexivity.
      * exfalso. inversion Ft as [|? ? _ F2]; subst. inversion F2; subst. lia.
      * right. left. reflexivity.
Qed.
(** A variable that sorts first hides all time steps. *)
Theorem C30_variable_first_refuted : exists ops path, history_ok ops /\ absolute path /\
  exists_path ops (elements path ++ [bs "d1"]) /\ num_timesteps (mk (run_dir ops) []) path = OK None.
Proof.
  exists [OpFolder (bs "/a/d1"); OpFolder (bs "/a"); OpFile (bs "b") (1, 1, 0, 0)%Z], (bs "/a"). split; [history|]. split; [eexists; reflexivity|].
  split; [|vm_compute; reflexivity]. left. eexists. split; [left; reflexivity|]. exists []. reflexivity.
Qed.

(** C32: every simple path of every directory is resolved as the specification
    [simple_path_meets] says: element by element in the folder itself, in its
    "metadata", in its first time step. *)
Theorem C32_resolution_partial : forall ops, history_ok ops -> specials_are_folders ops -> exists dir cur, run [] None ops = OK (dir, cur) /\
  forall b s, b_dir b = dir -> ascii_str s -> s <> [] ->
    exists o, simple_path_to_real b s = OK (option_map (fun '(r, t, timed) => (path_text r, t, timed)) o) /\ simple_path_meets ops (elements s) o.
Proof.
  intros ops H Sp. destruct (history_run ops H) as (dir & cur & E & D). exists dir, cur. split; [exact E|].
  intros b s <- As Ne. destruct (simple_path_spec ops b s H D Sp As Ne) as (o & A & B & _). exists o. auto.
Qed.

(** C32: the real path denotes an existing variable of the reported type (or a
    folder and type 255); for timed paths after adding the dropped time steps. *)
Theorem C32_sound_partial : forall ops, history_ok ops -> specials_are_folders ops -> proper_names ops -> exists dir cur, run [] None ops = OK (dir, cur) /\
  forall b s real t timed, b_dir b = dir -> ascii_str s -> s <> [] -> simple_path_to_real b s = OK (Some (real, t, timed)) ->
    exists p, denotes_type ops p t /\ drops p (elements real) /\ (timed = false -> elements real = p).
Proof.
  intros ops H Sp Pn. destruct (history_run ops H) as (dir & cur & E & D). exists dir, cur. split; [exact E|].
  intros b s real t timed <- As Ne Er. destruct (simple_path_spec ops b s H D Sp As Ne) as (o & A & _ & So). rewrite A in Er.
  destruct o as [[[r t'] tm]|]; [|discriminate]. cbn [option_map] in Er. injection Er as Er -> ->. destruct So as (zp & zr & Q & Dt & Dr & Ht). cbn [app] in Q, Dt. subst r.
  exists zp. split; [exact Dt|].
  assert (Pz : Forall proper zp).
  { destruct Dt as [(_ & [->|F])|(size & fi & pos & L)]; [constructor|eapply folder_path_proper; exact F|].
    apply (exists_proper ops); [exact Pn|]. right. eexists. apply last_record_in. exact L. }
  assert (Pr : Forall proper zr) by (clear - Dr Pz; induction Dr; [constructor|inversion Pz; constructor; auto|inversion Pz; auto]).
  assert (El : elements real = zr). { rewrite <- Er. destruct zr as [|x zr]; [reflexivity|]. apply (elements_path_of (x :: zr)). exact Pr. }
  rewrite El. split; [exact Dr|]. intros Q. symmetry. apply Ht. exact Q.
Qed.

(** The path of an existing variable resolves to itself with its type. *)
Theorem C32_existing_partial : forall ops, history_ok ops -> specials_are_folders ops -> exists dir cur, run [] None ops = OK (dir, cur) /\
  forall b s t size fi pos, b_dir b = dir -> ascii_str s -> s <> [] -> last_record (records [] ops) (elements s) (Some (t, size, fi, pos)) ->
    simple_path_to_real b s = OK (Some (path_text (elements s), t, false)).
Proof.
  intros ops H Sp. destruct (history_run ops H) as (dir & cur & E & D). exists dir, cur. split; [exact E|].
  intros b s t size fi pos <- As Ne L. destruct (simple_path_spec ops b s H D Sp As Ne) as (o & A & M & _). rewrite A. f_equal.
  pose proof (last_record_in _ _ _ L) as I.
  assert (Deep : exists c n, elements s = c ++ [n] /\ c <> [] /\ is_folder_path ops c).
  { destruct (records_name _ _ _ _ I) as (c & n & Q & _ & Ic). exists c, n. split; [exact Q|].
    destruct Ic as [->|Ic].
    - exfalso. apply (denotes_top ops (b_dir b) H D n (t, size, fi, pos)). cbn [app] in Q. rewrite Q in L.
      pose proof (proj2 D [n]) as Qn. destruct (nd (b_dir b) [n]) as [[j|]|].
      + f_equal. f_equal. pose proof (last_record_unique _ _ _ _ Qn L) as U. congruence.
      + exfalso. destruct Qn as [Qn|Qn]; [discriminate|]. destruct H as (_ & _ & _ & Nc). rewrite Q in I. exact (Nc _ _ I Qn).
      + exfalso. destruct Qn as (Qn & _). rewrite Q in I. exact (Qn _ I).
    - split; [|exists c; split; [exact Ic|exists []; symmetry; apply app_nil_r]].
      apply folder_paths_in in Ic as (q & Iq & ->). destruct H as (Hp & _). destruct (Hp q Iq) as (_ & x & z & -> & Nx).
      unfold elements. cbn [split_sep]. change (SEP =? 47)%Z with true. cbn iota. destruct (Z.eqb_spec x 47); [contradiction|]. destruct (split_sep z); cbn; discriminate. }
  destruct Deep as (c & n & Q & Nc0 & Fc).
  assert (o = Some (elements s, t, false)) as ->; [|reflexivity].
  rewrite Q in *. destruct c as [|x c]; [congruence|]. cbn [app simple_path_meets] in M. destruct M as (M & _).
  assert (Fx : is_folder_path ops [x]) by (destruct Fc as (p & Ip & (r & ->)); exists (x :: c ++ r); split; [exact Ip|exists (c ++ r); reflexivity]).
  specialize (M Fx). clear Q Nc0 A.
  change (x :: c ++ [n]) with ([x] ++ c ++ [n]). change (x :: c) with ([x] ++ c) in *. change ((([x] ++ c) ++ [n])) with ([x] ++ c ++ [n]) in *.
  revert M Fc L. generalize [x] at 1 2 3 4 5 as p. clear Fx I.
  induction c as [|y c IH]; intros p M Fc L; cbn [app simple_meets] in M.
  - destruct M as (M & _). rewrite app_nil_r in Fc. cbn [app] in L. destruct M as (_ & M); [right; eexists; apply last_record_in; exact L|]. exact (M _ _ _ _ L).
  - destruct M as (M & _).
    assert (Fy : is_folder_path ops (p ++ [y])) by (destruct Fc as (q & Iq & (r & ->)); eexists; split; [exact Iq|]; exists (c ++ r); rewrite <- !app_assoc; reflexivity).
    destruct M as (M & _); [left; exact Fy|]. specialize (M Fy). specialize (IH (p ++ [y]) M). rewrite <- !app_assoc in IH. cbn [app] in IH. apply IH; assumption.
Qed.

(** A variable named like a time step, or "metadata", is treated as a folder:
    its children pointer is not initialised. *)
Theorem C32_d_variable_refuted : exists ops s, history_ok ops /\ ascii_str s /\ simple_path_to_real (mk (run_dir ops) []) s = UB.
Proof.
  exists [OpFolder (bs "/a"); OpFile (bs "d1") (1, 1, 0, 0)%Z], (bs "/a/x"). split; [history|]. split; [repeat constructor|vm_compute; reflexivity].
Qed.
Theorem C32_metadata_variable_refuted : exists ops s, history_ok ops /\ ascii_str s /\ simple_path_to_real (mk (run_dir ops) []) s = UB.
Proof.
  exists [OpFolder (bs "/a"); OpFile (bs "metadata") (1, 1, 0, 0)%Z], (bs "/a/x"). split; [history|]. split; [repeat constructor|vm_compute; reflexivity].
Qed.
(** Success does not mean that a variable was found: folders resolve too. *)
Theorem C32_folder_refuted : exists ops s, history_ok ops /\ simple_path_to_real (mk (run_dir ops) []) s = OK (Some (bs "/a", 255%Z, false)) /\ records [] ops = [].
Proof. exists [OpFolder (bs "/a")], (bs "/a"). split; [history|]. split; [vm_compute; reflexivity|reflexivity]. Qed.

(** C31: if all time steps of a folder have the variable with the same number
    of bytes and the same entries on the way to it, a timed read of any type
    returns the bytes of all steps in listing order. *)
Theorem C31_regular_partial : forall ops, history_ok ops -> exists dir cur, run [] None ops = OK (dir, cur) /\
  forall b variable fld rel steps rows size t values0 steps0, b_dir b = dir ->
    ascii_str variable -> absolute variable -> elements variable = fld ++ rel -> fld <> [] -> rel <> [] ->
    is_folder_path ops fld -> ~ exists_path ops (fld ++ [List.hd [] rel]) -> tidy ops fld -> steps_of ops fld steps -> steps <> [] ->
    Forall2 (step_value ops (b_files b) fld rel) steps rows -> Forall (fun row => Z.of_nat (length row) = size) rows ->
    Forall (same_entries ops fld rel (List.hd [] steps)) steps ->
    (0 <= t)%Z -> (0 < size / BinSpec.element_bytes t)%Z -> (size * Z.of_nat (length steps) < 2 ^ 64)%Z ->
    read_timed b variable values0 steps0 t =
      OK {| t_data := Some (concat rows); t_values := (size / BinSpec.element_bytes t)%Z; t_steps := Z.of_nat (length steps); t_error := None |}.
Proof.
  intros ops H. destruct (history_run ops H) as (dir & cur & E & D). exists dir, cur. split; [exact E|].
  intros b variable fld rel steps rows size t v s <-. intros. rewrite <- BinProofs.type_size_spec in * by assumption. eapply read_timed_regular; eauto. exact (proj2 (proj2 (proj2 H))).
Qed.

(** C31: if the variable is directly inside of the steps, no assumption about
    their other entries is needed: the result is all values or an error. *)
Theorem C31_direct_partial : forall ops, history_ok ops -> exists dir cur, run [] None ops = OK (dir, cur) /\
  forall b variable fld n steps rows size t values0 steps0, b_dir b = dir -> proper n ->
    ascii_str variable -> absolute variable -> length variable < 900 -> elements variable = fld ++ [n] -> fld <> [] ->
    is_folder_path ops fld -> ~ exists_path ops (fld ++ [n]) -> tidy ops fld -> steps_of ops fld steps -> steps <> [] ->
    Forall2 (step_value ops (b_files b) fld [n]) steps rows -> Forall (fun row => Z.of_nat (length row) = size) rows ->
    (0 <= t)%Z -> (size * Z.of_nat (length steps) < 2 ^ 64)%Z ->
    exists r, read_timed b variable values0 steps0 t = OK r /\
      ((t_data r = Some (concat rows) /\ t_values r = (size / BinSpec.element_bytes t)%Z /\ t_steps r = Z.of_nat (length steps) /\ t_error r = None) \/
       (t_data r = None /\ t_error r <> None)).
Proof.
  intros ops H. destruct (history_run ops H) as (dir & cur & E & D). exists dir, cur. split; [exact E|].
  intros b variable fld n steps rows size t v s <-. intros. rewrite <- BinProofs.type_size_spec by assumption. eapply read_timed_direct; eauto. exact (proj2 (proj2 (proj2 H))).
Qed.

Definition bytes16 : list (option disk) := [Some (Content [1; 2; 3; 4; 5; 6; 7; 8; 9; 10; 11; 12; 13; 14; 15; 16]%Z)].
(** A step with more values than the first one is written behind the array. *)
Theorem C31_overflow_refuted : exists ops, history_ok ops /\ read_timed (mk (run_dir ops) bytes16) (bs "/a/x") 0 0 5 = UB.
Proof.
  exists [OpFolder (bs "/a/d1"); OpFile (bs "x") (5, 1, 0, 0)%Z; OpFolder (bs "/a/d2"); OpFile (bs "x") (5, 2, 0, 1)%Z]. split; [history|]. vm_compute. reflexivity.
Qed.
(** A step with fewer values leaves uninitialised bytes and puts its values in
    the row of another step. *)
Theorem C31_shorter_refuted : exists ops r, history_ok ops /\ read_timed (mk (run_dir ops) bytes16) (bs "/a/x") 0 0 5 = OK r /\
  t_error r = None /\ t_data r = Some [1; 5; JUNK; JUNK]%Z.
Proof.
  exists [OpFolder (bs "/a/d1"); OpFile (bs "x") (5, 2, 0, 0)%Z; OpFolder (bs "/a/d2"); OpFile (bs "x") (5, 1, 0, 4)%Z]. eexists. split; [history|].
  split; [vm_compute; reflexivity|]. split; reflexivity.
Qed.
(** Nested variables are found by position: here step 2 delivers "other/x"
    instead of "sub/x". *)
Theorem C31_position_refuted : exists ops r, history_ok ops /\ read_timed (mk (run_dir ops) bytes16) (bs "/a/sub/x") 0 0 5 = OK r /\
  t_error r = None /\ t_data r = Some [1; 9]%Z /\ last_record (records [] ops) [bs "a"; bs "d2"; bs "sub"; bs "x"] (Some (5, 1, 0, 4)%Z).
Proof.
  exists [OpFolder (bs "/a/d1/sub"); OpFile (bs "x") (5, 1, 0, 0)%Z; OpFolder (bs "/a/d2/other"); OpFile (bs "x") (5, 1, 0, 8)%Z; OpFolder (bs "/a/d2/sub"); OpFile (bs "x") (5, 1, 0, 4)%Z].
  eexists. split; [history|]. split; [vm_compute; reflexivity|]. split; [reflexivity|]. split; [reflexivity|]. eexists. exists []. split; [|intros j []].
  instantiate (1 := [_; _]). reflexivity.
Qed.
(** The type is not checked: a float variable is delivered as integers. *)
Theorem C31_type_refuted : exists ops r, history_ok ops /\ read_timed (mk (run_dir ops) bytes16) (bs "/a/x") 0 0 3 = OK r /\
  t_error r = None /\ t_data r <> None /\ last_record (records [] ops) [bs "a"; bs "d1"; bs "x"] (Some (9, 4, 0, 0)%Z).
Proof.
  exists [OpFolder (bs "/a/d1"); OpFile (bs "x") (9, 4, 0, 0)%Z]. eexists. split; [history|]. split; [vm_compute; reflexivity|]. split; [reflexivity|]. split; [discriminate|].
  exists [], []. split; [reflexivity|intros j []].
Qed.
(** Unknown elements of the path are skipped inside of a time step. *)
Theorem C31_garbage_refuted : exists ops r, history_ok ops /\ read_timed (mk (run_dir ops) bytes16) (bs "/a/garbage/x") 0 0 5 = OK r /\ t_error r = None.
Proof.
  exists [OpFolder (bs "/a/d1"); OpFile (bs "x") (5, 1, 0, 0)%Z]. eexists. split; [history|]. split; [vm_compute; reflexivity|reflexivity].
Qed.

(** C31: the path of an existing variable or folder is refused and nothing is
    handed out; the error tells which of the two it is. *)
Theorem C31_not_timed : forall ops, history_ok ops -> exists dir cur, run [] None ops = OK (dir, cur) /\
  forall b variable v s t, b_dir b = dir -> ascii_str variable -> absolute variable -> length variable < 900 ->
    elements variable = [] \/ exists_path ops (elements variable) ->
    exists m, read_timed b variable v s t = OK {| t_data := None; t_values := v; t_steps := s; t_error := Some m |} /\ not_timed_message ops variable m.
Proof.
  intros ops H. destruct (history_run ops H) as (dir & cur & E & D). exists dir, cur. split; [exact E|].
  intros b variable v s t <- As Ab L Ex. pose proof (proj2 (proj2 (proj2 H))) as Nc.
  assert (Hn : nd (b_dir b) (elements variable) <> None).
  { destruct Ex as [Q|[F|(i & I)]]; [rewrite Q; discriminate|rewrite (denotes_folder ops _ D Nc _ F); discriminate|].
    pose proof (proj2 D (elements variable)) as Q. destruct (nd (b_dir b) (elements variable)); [discriminate|]. destruct Q as (Q & _). destruct (Q i I). }
  unfold read_timed. rewrite (search_timed_there b variable (proj1 D) As Ab (denotes_top ops _ H D) Hn). cbn [bind].
  rewrite timed_fails_short.
  2:{ destruct (b_dir b); [cbn; lia|]. destruct (elements variable); [rewrite !app_length; cbn; lia|]. unfold there_message. destruct (nd _ _) as [[|]|]; rewrite !app_length; cbn; lia. }
  eexists. split; [reflexivity|]. split; [|split].
  - intros Q Nz. rewrite Q. destruct (b_dir b) as [|c0 cs] eqn:Ed; [|reflexivity]. exfalso. destruct ops as [|o ops]; [congruence|].
    destruct o as [p|n i]; [|destruct H as (_ & _ & [] & _)]. assert (F : is_folder_path (OpFolder p :: ops) (elements p)) by (exists (elements p); split; [left; reflexivity|exists []; symmetry; apply app_nil_r]).
    pose proof (denotes_folder _ _ D Nc _ F) as G. destruct H as (Cl & _). destruct (Cl p (or_introl eq_refl)) as (_ & c & u & -> & Nq).
    assert (El : elements (SEP :: c :: u) <> []).
    { unfold elements. cbn [split_sep]. change (SEP =? 47)%Z with true. cbn [filter]. destruct (Z.eqb_spec c 47) as [->|_]; [exfalso; apply Nq; reflexivity|]. destruct (split_sep u); discriminate. }
    destruct (elements (SEP :: c :: u)); [congruence|discriminate G].
  - intros Ne F. pose proof (denotes_folder ops _ D Nc _ F) as G. destruct (elements variable) as [|x els] eqn:El; [|destruct (b_dir b) eqn:Ed; [discriminate G|rewrite G; reflexivity]].
    congruence.
  - intros i Ne I. assert (G : exists j, nd (b_dir b) (elements variable) = Some (NFile j)).
    { pose proof (proj2 D (elements variable)) as Q. destruct (nd (b_dir b) (elements variable)) as [[j|]|]; [eauto|destruct Q as [Q|Q]; [congruence|destruct (Nc _ _ I Q)]|destruct Q as (Q & _); destruct (Q i I)]. }
    destruct G as (j & G). destruct (elements variable) as [|x els] eqn:El; [congruence|]. destruct (b_dir b) eqn:Ed; [discriminate G|]. rewrite G. reflexivity.
Qed.
(** C31: a timed read that gives nothing always says why, also for damaged files. *)
Lemma decimal_prints : forall n z acc, (0 <= z < 10 ^ Z.of_nat (S n))%Z -> exists ds, decimal (S n) z acc = ds ++ acc /\
  ds <> [] /\ Forall (fun c => 48 <= c <= 57)%Z ds /\ (List.hd 0%Z ds = 48%Z -> ds = [48%Z]) /\ fold_left (fun n c => n * 10 + (c - 48))%Z ds 0%Z = z.
Proof.
  induction n as [|n IH]; intros z acc B; cbn [decimal].
  - change (10 ^ Z.of_nat 1)%Z with 10%Z in B. rewrite (proj2 (Z.ltb_lt z 10)) by lia. rewrite Z.mod_small by lia. exists [(48 + z)%Z].
    split; [reflexivity|]. split; [discriminate|]. split; [constructor; [lia|constructor]|]. split; [cbn [List.hd]; intros ->; reflexivity|cbn [fold_left]; lia].
  - pose proof (Z.mod_pos_bound z 10 ltac:(lia)) as M. destruct (Z.ltb_spec z 10) as [L|L].
    + rewrite Z.mod_small by lia. exists [(48 + z)%Z].
      split; [reflexivity|]. split; [discriminate|]. split; [constructor; [lia|constructor]|]. split; [cbn [List.hd]; intros ->; reflexivity|cbn [fold_left]; lia].
    + assert (Bd : (0 <= z / 10 < 10 ^ Z.of_nat (S n))%Z).
      { split; [apply Z.div_pos; lia|]. apply Z.div_lt_upper_bound; [lia|]. rewrite (Nat2Z.inj_succ (S n)), Z.pow_succ_r in B by lia. lia. }
      destruct (IH (z / 10)%Z ((48 + z mod 10)%Z :: acc) Bd) as (ds & E & Ne & F & Hd & V).
      cbn [decimal] in E. exists (ds ++ [(48 + z mod 10)%Z]). rewrite <- app_assoc. split; [exact E|]. split; [destruct ds; discriminate|].
      split; [apply Forall_app; split; [exact F|constructor; [lia|constructor]]|]. split.
      * intros H0. exfalso. destruct ds as [|d r]; [congruence|]. cbn [app List.hd] in H0, Hd. specialize (Hd H0). rewrite Hd in V. cbn in V.
        assert (1 <= z / 10)%Z by (apply Z.div_le_lower_bound; lia). lia.
      * rewrite fold_left_app, V. cbn [fold_left]. pose proof (Z.div_mod z 10 ltac:(lia)). lia.
Qed.
Lemma search_loop_message variable files steps : forall f cs pv m, search_timed_loop f variable cs pv = OK (inl m) -> timed_message files variable steps m.
Proof.
  unfold timed_message. induction f as [|f IH]; intros cs pv m; [discriminate|]. cbn [search_timed_loop].
  destruct (path_view_advance pv) as [[pv1 more]| |]; cbn [bind]; try discriminate. destruct (negb more); [intros E; injection E as <-; auto 10|].
  destruct cs as [|c cs]; [intros E; injection E as <-; auto 10|]. destruct (search (c :: cs) pv1) as [i| |]; cbn [bind]; try discriminate.
  destruct i as [i|].
  - destruct (aget (c :: cs) i) as [[nm vt sz fi p|nm sub]| |]; cbn [bind]; try discriminate.
    + destruct (path_view_advance pv1) as [[pv2 more2]| |]; cbn [bind]; try discriminate. destruct more2; intros E; injection E as <-; auto 10.
    + apply IH.
  - destruct (first_d_entry (c :: cs)) as [[d|]| |]; cbn [bind]; try discriminate; [|intros E; injection E as <-; auto 10].
    destruct (search_d _ _ _) as [[tp|]| |]; cbn [bind]; try discriminate. intros E; injection E as <-; auto 10.
Qed.
Lemma read_steps_message b variable values steps tp name : forall ds k data r, read_steps b variable values steps tp name ds k data = OK r ->
  (Z.of_nat k + Z.of_nat (length ds) <= steps)%Z ->
  t_steps r = steps /\ t_values r = values /\ match t_data r with Some _ => t_error r = None | None => exists m, t_error r = Some m /\ timed_message (b_files b) variable steps m end.
Proof.
  assert (Fl : forall m r, timed_fails values steps m = OK r -> timed_message (b_files b) variable steps m ->
    t_steps r = steps /\ t_values r = values /\ match t_data r with Some _ => t_error r = None | None => exists m, t_error r = Some m /\ timed_message (b_files b) variable steps m end).
  { intros m r Q T. unfold timed_fails, error_string in Q. destruct (length m <? 1024); [|discriminate]. cbn in Q. injection Q as <-. cbn. eauto. }
  assert (Pr : forall k, (Z.of_nat k < 10 ^ 20)%Z -> prints k (nat_string k)).
  { intros k B. unfold nat_string. destruct (decimal_prints 19 (Z.of_nat k) []) as (ds & -> & Ne & F & Hd & V); [split; [lia|exact B]|]. rewrite app_nil_r. repeat split; auto. }
  induction ds as [|d ds IH]; intros k data r; cbn [read_steps].
  - intros E _. injection E as <-. cbn. auto.
  - cbn [length]. intros E B. destruct (open_timed_path d tp (Some name)) as [[[nm vt sz fi p|nm sub]|]| |]; cbn [bind] in E; try discriminate.
    2: { apply (Fl _ _ E). unfold timed_message. do 8 right. exists k, (nat_string k). split; [lia|]. split; [apply Pr|left; reflexivity]. }
    unfold aget in E. destruct (nth_error (b_files b) (Z.to_nat fi)) as [[[why|bytes]|]|] eqn:Ef; cbn [bind] in E; try discriminate.
    { apply (Fl _ _ E). unfold timed_message. do 6 right. left. exists why. split; [apply nth_error_In in Ef; exact Ef|reflexivity]. }
    destruct (fseek_to p) as [q|]; [|apply (Fl _ _ E); unfold timed_message; auto 12].
    cbv zeta in E. destruct (memcpy _ _ _ _ _) as [data2| |]; cbn [bind] in E; try discriminate.
    destruct (fread bytes q sz 1) as [?|]; [|apply (Fl _ _ E); unfold timed_message; do 8 right; exists k, (nat_string k); split; [lia|]; split; [apply Pr|right; reflexivity]].
    apply (IH _ _ _ E). lia.
Qed.
Theorem C31_messages : forall b variable v s t r, read_timed b variable v s t = OK r ->
  match t_data r with
  | Some _ => t_error r = None
  | None => exists m, t_error r = Some m /\ timed_message (b_files b) variable (t_steps r) m
  end.
Proof.
  intros b variable v s t r. unfold read_timed. destruct (search_timed b variable) as [[m|[cs tp]]| |] eqn:Es; cbn [bind]; try discriminate.
  - intros E. unfold timed_fails, error_string in E. destruct (length m <? 1024); [|discriminate]. cbn in E. injection E as <-. cbn. exists m. split; [reflexivity|].
    unfold search_timed in Es. destruct (b_dir b) as [|c cs]; [injection Es as <-; unfold timed_message; auto|].
    destruct (path_view_new variable) as [pv| |]; cbn [bind] in Es; try discriminate. destruct (path_view_advance pv) as [[pv1 more]| |]; cbn [bind] in Es; try discriminate.
    destruct (negb more); [injection Es as <-; unfold timed_message; auto|]. destruct (search (c :: cs) pv1) as [[i|]| |]; cbn [bind] in Es; try discriminate; [|injection Es as <-; unfold timed_message; auto].
    destruct (aget (c :: cs) i) as [[nm vt sz fi p|nm sub]| |]; cbn [bind] in Es; try discriminate; [injection Es as <-; unfold timed_message; auto|].
    apply (search_loop_message _ _ _ _ _ _ _ Es).
  - destruct (first_d cs 0) as [start| |]; cbn [bind]; try discriminate. destruct (last_d cs (length cs - 1)) as [end_| |]; cbn [bind]; try discriminate.
    destruct (aget cs start) as [first| |]; cbn [bind]; try discriminate. destruct (open_timed_path first tp None) as [[[nm vt sz fi p|nm sub]|]| |]; cbn [bind]; try discriminate.
    cbv zeta. destruct (sz / type_size t =? 0)%Z.
    + intros E. unfold timed_fails, error_string in E. destruct (_ <? 1024); [|discriminate]. cbn in E. injection E as <-. cbn. eexists. split; [reflexivity|]. unfold timed_message. auto 10.
    + intros E. apply read_steps_message in E as (-> & _ & E); [exact E|]. rewrite firstn_length, skipn_length. lia.
Qed.

(** C31: a timed read finds the variable in the first time step of one of the
    folders of the path: [rel] is what follows the folder, possibly without
    some elements (see C31_garbage_refuted).  If there is no such variable, an
    error is reported and nothing is handed out. *)
Theorem C31_missing_partial : forall ops, history_ok ops -> specials_are_folders ops -> exists dir cur, run [] None ops = OK (dir, cur) /\
  forall b variable v s t, b_dir b = dir -> ascii_str variable -> absolute variable -> length variable < 900 ->
    (forall fld rest d rel i, elements variable = fld ++ rest -> fld <> [] -> ~ exists_path ops (fld ++ [List.hd [] rest]) -> first_step ops fld d -> subpath rel rest ->
       ~ In (fld ++ d :: rel, i) (records [] ops)) ->
    exists m, read_timed b variable v s t = OK {| t_data := None; t_values := v; t_steps := s; t_error := Some m |}.
Proof.
  intros ops H Sp. destruct (history_run ops H) as (dir & cur & E & D). exists dir, cur. split; [exact E|].
  intros b variable v s t <- As Ab L Nx. pose proof (proj2 (proj2 (proj2 H))) as Nc.
  destruct (search_timed_found b variable (proj1 D) As Ab (d_folders ops _ D Nc Sp)) as (r & Er & Fr). unfold read_timed. rewrite Er. cbn [bind].
  destruct r as [m|(cs, tp)]; [rewrite timed_fails_short by lia; eexists; reflexivity|]. exfalso.
  destruct Fr as (x & els & El & k & sub & Fx & fld & rest & folder & d & rel & i & -> & Nr & C & Fn & Fd & Sb & N).
  assert (C' : children_at (b_dir b) (x :: fld) = Some folder) by (cbn [children_at]; rewrite Fx; exact C).
  destruct (first_entry_step ops _ _ _ _ D Nc C' Fd) as (Fs & Ff).
  apply (Nx (x :: fld) rest (ename d) rel i El ltac:(discriminate)); [|exact Fs|exact Sb|].
  - apply (find_none ops _ (x :: fld) folder _ D Nc C'). exact Fn.
  - pose proof (proj2 D ((x :: fld) ++ ename d :: rel)) as Q. rewrite (nd_app _ _ _ _ C'), nd_cons, Ff, N in Q. destruct Q as (a & z & Q & _). rewrite Q. apply in_or_app. right. left. reflexivity.
Qed.

(** ** Two steps with metadata *)
Definition ex_ops : list op :=
  [OpFolder (bs "/nodout/metadata"); OpFile (bs "ids") (6, 2, 0, 0)%Z; OpFolder (bs "/nodout/d000001"); OpFile (bs "a") (5, 1, 0, 2)%Z; OpFile (bs "x") (5, 2, 0, 3)%Z;
   OpFolder (bs "/nodout/d000002"); OpFile (bs "x") (5, 2, 0, 8)%Z; OpFile (bs "b") (5, 1, 0, 2)%Z].
Example C30_ex_history : history_ok ex_ops. Proof. history. Qed.
Example C30_ex : num_timesteps (mk (run_dir ex_ops) bytes16) (bs "/nodout") = OK (Some 2). Proof. vm_compute. reflexivity. Qed.
Example C30_ex_tidy : tidy ex_ops [bs "nodout"].
Proof.
  intros t [(p & P & (r & E))|(i & H)].
  - vm_compute in P. destruct P as [<-|[<-|[<-|[]]]]; vm_compute in E; try discriminate E; injection E as <- <-; (eexists; split; [reflexivity|split; [discriminate|repeat (constructor; [split; discriminate|]); constructor]]).
  - vm_compute in H. repeat (destruct H as [H|H]; [discriminate H|]). contradiction.
Qed.
Example C31_ex_values : Forall2 (step_value ex_ops bytes16 [bs "nodout"] [bs "x"]) [bs "d000001"; bs "d000002"] [[4; 5]; [9; 10]]%Z.
Proof.
  constructor; [|constructor; [|constructor]].
  - exists (5, 2, 0, 3)%Z. split; [exists (firstn 2 (records [] ex_ops)), (skipn 3 (records [] ex_ops)); split; [reflexivity|]|].
    + intros j H. vm_compute in H. repeat (destruct H as [H|H]; [discriminate H|]). contradiction.
    + eexists. split; [reflexivity|]. split; [lia|]. split; [cbn; lia|]. split; [lia|reflexivity].
  - exists (5, 2, 0, 8)%Z. split; [exists (firstn 3 (records [] ex_ops)), (skipn 4 (records [] ex_ops)); split; [reflexivity|]|].
    + intros j H. vm_compute in H. repeat (destruct H as [H|H]; [discriminate H|]). contradiction.
    + eexists. split; [reflexivity|]. split; [lia|]. split; [cbn; lia|]. split; [lia|reflexivity].
Qed.
Example C31_ex : read_timed (mk (run_dir ex_ops) bytes16) (bs "/nodout/x") 0 0 5 = OK {| t_data := Some [4; 5; 9; 10]%Z; t_values := 2; t_steps := 2; t_error := None |}.
Proof. vm_compute. reflexivity. Qed.
Example C32_ex_specials : specials_are_folders ex_ops /\ proper_names ex_ops.
Proof.
  split; intros n i H; cbn in H; repeat (destruct H as [H|H]; [try discriminate H; injection H as <- _|]); try contradiction.
  all: split; [try discriminate; intros (t & Q & _); discriminate Q|].
  all: try discriminate.
  all: vm_compute; intros Q; repeat (destruct Q as [Q|Q]; [discriminate Q|]); contradiction.
Qed.
Example C32_ex : simple_path_to_real (mk (run_dir ex_ops) []) (bs "nodout/ids") = OK (Some (bs "/nodout/metadata/ids", 6%Z, false)) /\
  simple_path_to_real (mk (run_dir ex_ops) []) (bs "/nodout/x") = OK (Some (bs "/nodout/x", 5%Z, true)) /\
  simple_path_to_real (mk (run_dir ex_ops) []) (bs "/nodout/y") = OK None.
Proof. vm_compute. auto. Qed.

Example C31_ex_not_timed : read_timed (mk (run_dir ex_ops) bytes16) (bs "/nodout/d000001/x") 7 8 5 =
    OK {| t_data := None; t_values := 7; t_steps := 8; t_error := Some (bs "The variable ""/nodout/d000001/x"" is not timed") |} /\
  read_timed (mk (run_dir ex_ops) bytes16) (bs "/nodout/metadata") 7 8 5 =
    OK {| t_data := None; t_values := 7; t_steps := 8; t_error := Some (bs "The variable ""/nodout/metadata"" is either metadata (not timed) or does not exist") |} /\
  read_timed (mk (run_dir ex_ops) bytes16) (bs "/") 7 8 5 = OK {| t_data := None; t_values := 7; t_steps := 8; t_error := Some (bs "The path ""/"" is too short") |} /\
  read_timed (mk (run_dir ex_ops) bytes16) (bs "/nodout/z") 7 8 5 = OK {| t_data := None; t_values := 7; t_steps := 8; t_error := Some (bs "The variable ""/nodout/z"" does not exist") |}.
Proof. vm_compute. auto. Qed.

Print Assumptions C30_count_partial.
Print Assumptions C31_regular_partial.
Print Assumptions C31_direct_partial.
Print Assumptions C32_resolution_partial.
Print Assumptions C32_sound_partial.
Print Assumptions C31_not_timed.
Print Assumptions C31_missing_partial.
Print Assumptions C31_messages.
