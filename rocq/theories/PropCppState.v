(** * C91: element states in C++ *)
From Verif Require Import CBase CBaseFacts BinModel D3BufModel D3BufSpec D3BufProofs D3Model D3Spec D3CurProofs D3OpenProofs D3SectProofs D3StateProofs D3Sample D3Rich D3ReadModel D3ReadSpec D3ReadProofs D3ElemModel D3ElemSpec D3ElemProofs D3LayerProofs D3MeanProofs D3ShellProofs D3ShellReadProofs PropD3Elem CppArrayModel CppArraySpec CppArrayProofs OwnModel OwnProofs ElemMemModel ElemMemSpec ElemMemProofs PropElemMem CppStateModel CppStateSpec CppStateProofs CppStateReadProofs.
Open Scope Z_scope.

(** ** Values *)
(** Programs that copy only what can be copied see the values of the file, and nothing
    else happens. *)
Theorem C91_shells_partial : forall fadd fdiv of_int prog rs v, evrun shell_source (2 ^ 64) fadd fdiv of_int copies_fit [] prog rs v ->
  exists s, erun shells fadd fdiv of_int store0 prog = OK (s, rs).
Proof.
  intros fadd fdiv of_int prog rs v R. destruct (run_ok shells shell_source (2 ^ 64) fadd fdiv of_int shells_index shells_reads copies_fit (fun _ _ H => H) prog store0 [] rs v (inv_store0 _ _) R) as (s & E & _). eauto.
Qed.
Theorem C91_thick_shells_partial : forall fadd fdiv of_int prog rs v, evrun thick_source 256 fadd fdiv of_int copies_fit [] prog rs v ->
  exists s, erun thick_shells fadd fdiv of_int store0 prog = OK (s, rs).
Proof.
  intros fadd fdiv of_int prog rs v R. destruct (run_ok thick_shells thick_source 256 fadd fdiv of_int thick_index thick_reads copies_fit (fun _ _ H => H) prog store0 [] rs v (inv_store0 _ _) R) as (s & E & _). eauto.
Qed.

(** ** Memory *)
Definition neat (v : cvalues) (o : eop) : Prop := copies_fit v o /\ overwrites_nothing v o.
Lemma gone {A} (blocks : A -> list nat) rep keep s (v : cvalues) : inv blocks rep s v -> kcovered blocks keep s -> Forall (fun o => o = None) v -> forall b c, nth_error (st_heap s) b = Some (Some c) -> keep c = false.
Proof.
  intros (L & R & _) C F b c Q. destruct (keep c) eqn:K; [|reflexivity]. exfalso. destruct (proj1 (kcovered_iff _ _ _) C b c Q K) as (j & o & Qo & Io). destruct (nth_error v j) as [w|] eqn:E; [|apply nth_error_None in E; apply nth_lt in Qo; lia].
  rewrite Forall_forall in F. pose proof (F w (nth_error_In _ _ E)) as ->. pose proof (R _ _ _ Qo E) as G. destruct o; [destruct G|]. destruct Io.
Qed.
Definition nonempty (c : list Z) : bool := match c with [] => false | _ => true end.
(** If moreover only empty arrays are overwritten and all objects are destroyed, at most
    empty blocks are left; none if all elements have history variables and a number of
    integration points other than three. *)
Theorem C91_memory_partial : forall fadd fdiv of_int prog rs v, Forall (fun o => o = None) v ->
  (evrun shell_source (2 ^ 64) fadd fdiv of_int neat [] prog rs v -> exists s, erun shells fadd fdiv of_int store0 prog = OK (s, rs) /\ forall b c, nth_error (st_heap s) b = Some (Some c) -> c = []) /\
  (evrun thick_source 256 fadd fdiv of_int neat [] prog rs v -> exists s, erun thick_shells fadd fdiv of_int store0 prog = OK (s, rs) /\ forall b c, nth_error (st_heap s) b = Some (Some c) -> c = []) /\
  (evrun shell_source (2 ^ 64) fadd fdiv of_int (fun v o => neat v o /\ reads_full shell_source o) [] prog rs v -> exists s, erun shells fadd fdiv of_int store0 prog = OK (s, rs) /\ forall b, ~ live s b).
Proof.
  intros fadd fdiv of_int prog rs v F. split; [|split]; intros R.
  - destruct (run_ok shells shell_source (2 ^ 64) fadd fdiv of_int shells_index shells_reads neat (fun _ _ H => proj1 H) prog store0 [] rs v (inv_store0 _ _) R) as (s & E & I & C). exists s. split; [exact E|].
    specialize (C nonempty (fun _ _ H => conj (proj2 H) (or_introl eq_refl)) (kcovered_store0 _ _)). intros b c Q. pose proof (gone _ _ _ _ _ I C F b c Q) as K. destruct c; [reflexivity|discriminate].
  - destruct (run_ok thick_shells thick_source 256 fadd fdiv of_int thick_index thick_reads neat (fun _ _ H => proj1 H) prog store0 [] rs v (inv_store0 _ _) R) as (s & E & I & C). exists s. split; [exact E|].
    specialize (C nonempty (fun _ _ H => conj (proj2 H) (or_introl eq_refl)) (kcovered_store0 _ _)). intros b c Q. pose proof (gone _ _ _ _ _ I C F b c Q) as K. destruct c; [reflexivity|discriminate].
  - destruct (run_ok shells shell_source (2 ^ 64) fadd fdiv of_int shells_index shells_reads _ (fun _ _ H => proj1 (proj1 H)) prog store0 [] rs v (inv_store0 _ _) R) as (s & E & I & C). exists s. split; [exact E|].
    specialize (C (fun _ => true) (fun _ _ H => conj (proj2 (proj1 H)) (or_intror (proj2 H))) (kcovered_store0 _ _)). intros b (c & Q). pose proof (gone _ _ _ _ _ I C F b c Q). discriminate.
Qed.

(** ** What goes wrong *)
Lemma h_read_fuel h p i : h_read h p i <> OOF.
Proof. unfold h_read, aget. destruct p as [[b o]|]; [|discriminate]. destruct (nth_error h b) as [[c|]|]; cbn [bind]; try discriminate. destruct (nth_error c (o + i)); discriminate. Qed.
Section Refuted.
Context {A : Type} (k : kind A) (src : source) (fadd fdiv : Z -> Z -> Z) (of_int : Z -> Z) (reads : reads_ok k src).
Notation step := (estep k fadd fdiv of_int).
Notation run := (erun k fadd fdiv of_int).

Lemma read_step pl st c : data_of src pl st c -> exists ext e, step store0 (ERead pl st) = OK ({| st_heap := ext; st_objs := [Some (CElems (fresh_arr e))] |}, Nothing) /\ erep k ext (fresh_arr e) c.
Proof.
  intros D. destruct reads as (RD & _). destruct (RD [] pl st c D) as (ext & pl' & e & E & Er & R & _). exists ext, e. cbn [estep store0 st_heap]. rewrite E. cbn [bind]. rewrite Er. split; [reflexivity|exact R].
Qed.
Lemma run_cons s o s' r t : step s o = OK (s', r) -> run s (o :: t) = (do ' (s', rs) <- run s' t; OK (s', r :: rs)).
Proof. intros E. unfold erun. cbn [exec]. rewrite E. reflexivity. Qed.
Lemma run_ub s o t : step s o = UB -> run s (o :: t) = UB.
Proof. intros E. unfold erun. cbn [exec]. rewrite E. reflexivity. Qed.

(** Two arrays point to the same history variables and integration points. *)
Lemma copy_ub pl st c : data_of src pl st c -> ~ plain c -> run store0 [ERead pl st; ECopyNew 0; EDestroy 0; EDestroy 1] = UB.
Proof.
  intros D NP. destruct (read_step pl st c D) as (h & e & E & R). rewrite (run_cons _ _ _ _ _ E). pose proof R as (C0 & Sz & _ & Ls & N & M & Ok). cbn [fresh_arr ea_data] in *.
  pose proof Ok as (N0 & M0 & (blk & (Ob & Hb) & Lb) & Hn & Hm & El & _ & _). assert (Lc : (0 < length c)%nat) by (destruct c; [congruence|cbn; lia]).
  assert (NM : N <> 0 \/ M <> 0).
  { destruct (Z.eq_dec N 0) as [Nz|]; [|auto]. destruct (Z.eq_dec M 0) as [Mz|]; [|auto]. exfalso. apply NP. split; [exact C0|]. intros x Ix. apply In_nth_error in Ix as (i & Qx).
    destruct (nth_error (el_structs e) i) as [s|] eqn:Qs; [|apply nth_error_None in Qs; apply nth_lt in Qx; lia]. specialize (El i s x Qs Qx). pose proof (element_layers k _ _ _ _ _ El M0) as Lx.
    assert (Hl : forall l hv, nth_error x l = Some hv -> hv = []) by (intros l hv Q; destruct (layer_ok k _ _ _ _ _ _ _ l hv Ok El Q) as (_ & _ & L & _); rewrite Nz in L; destruct hv; [reflexivity|discriminate]).
    rewrite Mz in Lx. destruct x as [|a [|b [|d [|? ?]]]]; try discriminate. rewrite (Hl 0%nat a eq_refl), (Hl 1%nat b eq_refl), (Hl 2%nat d eq_refl). reflexivity. }
  assert (E1 : step {| st_heap := h; st_objs := [Some (CElems (fresh_arr e))] |} (ECopyNew 0) = OK ({| st_heap := h ++ [Some (firstn (length (el_structs e)) blk)]; st_objs := [Some (CElems (fresh_arr e)); Some (CElems (fresh_arr (with_block e (length h, 0%nat))))] |}, Nothing)).
  { cbn [estep]. unfold elems_obj, get_obj. cbn [st_objs st_heap aget nth_error bind]. unfold earr_copy. cbn [fresh_arr ea_data option_map ea_size]. destruct (el_block e) as [b o] eqn:Eb. cbn [fst snd] in *. subst o.
    unfold h_slice. destruct (Nat.eqb_spec (length (el_structs e)) 0); [lia|]. rewrite (proj2 (aget_OK _ _ _) Hb). cbn [bind]. destruct (Nat.leb_spec (0 + length (el_structs e)) (length blk)); [|lia]. cbn [bind h_malloc skipn]. reflexivity. }
  rewrite (run_cons _ _ _ _ _ E1). set (h1 := h ++ [Some (firstn (length (el_structs e)) blk)]).
  assert (R1 : crep k h1 (CElems (fresh_arr e)) (VElems c)).
  { apply (crep_frame k h); [exact R|]. intros b Ib. apply nth_error_app1. destruct (crep_live k _ _ _ _ (R : crep k h (CElems (fresh_arr e)) (VElems c)) Ib) as (x & Q). eapply nth_lt; eauto. }
  destruct (destroy_any k _ _ _ R1) as (h2 & Ed & F & G).
  assert (E2 : step {| st_heap := h1; st_objs := [Some (CElems (fresh_arr e)); Some (CElems (fresh_arr (with_block e (length h, 0%nat))))] |} (EDestroy 0) = OK ({| st_heap := h2; st_objs := [None; Some (CElems (fresh_arr (with_block e (length h, 0%nat))))] |}, Nothing)).
  { cbn [estep]. unfold get_obj. cbn [st_objs st_heap aget nth_error bind]. rewrite Ed. reflexivity. }
  rewrite (run_cons _ _ _ _ _ E2). rewrite run_ub; [reflexivity|]. cbn [estep]. unfold get_obj. cbn [st_objs st_heap aget nth_error bind]. unfold earr_destroy. cbn [fresh_arr ea_del ea_data]. unfold free_elems. cbn [with_block el_block el_structs].
  destruct (owned_eq k _ _ _ _ _ Ok) as (x & s & Qx & Qs & Ow & Hh & Ha). destruct (h_read h2 (Some (length h, 0%nat)) 0) as [y| |] eqn:Er; [|reflexivity|destruct (h_read_fuel _ _ _ Er)].
  cbn [bind]. rewrite (proj2 (aget_OK _ _ _) Qx). cbn [bind]. rewrite Qs. cbn [init bind]. change (surface_hist (with_block e (length h, 0%nat)) s) with (surface_hist e s). change (struct_adds (with_block e (length h, 0%nat)) (k_layers k x)) with (struct_adds e (k_layers k x)). rewrite Hh, Ha.
  destruct (in_owned k _ _ _ _ _ Ok) as (_ & I2 & I3). cbn [cblocks eblocks fresh_arr ea_data] in F. unfold eblocks in F. cbn [fresh_arr ea_data] in F.
  destruct (Z.eqb_spec N 0) as [Nz|Nz].
  - destruct NM as [NM|NM]; [contradiction|]. destruct (Z.eqb_spec M 0); [contradiction|]. destruct (Hm NM) as (p & blk' & Qp & _). rewrite Qp. cbn [option_map h_free_all h_free_opt bind]. unfold h_free. unfold at_off. cbn [fst].
    rewrite (proj2 (aget_OK _ _ _) (F _ (I3 NM _ Qp))). reflexivity.
  - cbn [h_free_all h_free_opt]. unfold h_free. unfold at_off. cbn [fst]. rewrite (proj2 (aget_OK _ _ _) (F _ (I2 Nz))). reflexivity.
Qed.

(** A copy of an empty array is not empty. *)
Lemma empty_copy_ub pl st : nothing_of src pl st -> run store0 [ERead pl st; ECopyNew 0; EDestroy 1] = UB.
Proof.
  intros D. destruct reads as (_ & RN & _). destruct (RN [] pl st D) as (pl' & E & Er).
  assert (E0 : step store0 (ERead pl st) = OK ({| st_heap := []; st_objs := [Some (CElems {| ea_data := None; ea_size := 0; ea_del := true |})] |}, Nothing)) by (cbn [estep store0 st_heap]; rewrite E; cbn [bind]; rewrite Er; reflexivity).
  rewrite (run_cons _ _ _ _ _ E0). reflexivity.
Qed.
(** An array assigned to itself. *)
Lemma self_copy_ub pl st c : data_of src pl st c -> run store0 [ERead pl st; ECopyTo 0 0; EDestroy 0] = UB /\ run store0 [ERead pl st; ECopyTo 0 0; EHist 0 0 0 0] = UB.
Proof.
  intros D. destruct (read_step pl st c D) as (h & e & E & R). pose proof R as (C0 & Sz & _ & Ls & _). cbn [fresh_arr ea_data] in *.
  assert (Lc : (0 < length (el_structs e))%nat) by (destruct c; [congruence|cbn in Ls; lia]). set (p := (length h, 0%nat)).
  set (junk := {| ea_data := Some {| el_structs := []; el_hists := []; el_adds := []; el_block := p; el_hist := p; el_add := None |}; ea_size := length (el_structs e); ea_del := true |} : earr A).
  assert (E1 : step {| st_heap := h; st_objs := [Some (CElems (fresh_arr e))] |} (ECopyTo 0 0) = OK ({| st_heap := h ++ [Some (malloc (length (el_structs e)))]; st_objs := [Some (CElems junk)] |}, Nothing)) by reflexivity.
  split; rewrite (run_cons _ _ _ _ _ E), (run_cons _ _ _ _ _ E1), run_ub; try reflexivity; cbn [estep]; unfold elems_obj, get_obj; cbn [st_objs st_heap aget nth_error bind].
  - unfold earr_destroy, junk. cbn [ea_del ea_data]. unfold free_elems. cbn [el_block el_structs]. match goal with |- context [h_read ?x ?y ?z] => destruct (h_read x y z) as [w| |] eqn:Er; [reflexivity|reflexivity|destruct (h_read_fuel _ _ _ Er)] end.
  - unfold earr_at, junk. cbn [ea_size ea_data]. destruct (Nat.eqb_spec (length (el_structs e)) 0); [lia|]. destruct (Nat.ltb_spec (length (el_structs e) - 1) 0); [lia|]. cbn [orb el_block el_structs].
    match goal with |- context [h_read ?x ?y ?z] => destruct (h_read x y z) as [w| |] eqn:Er; [reflexivity|reflexivity|destruct (h_read_fuel _ _ _ Er)] end.
Qed.
(** Two mean surfaces point to the same history variables. *)
Lemma surf_copy_ub pl st c x : data_of src pl st c -> nth_error c 0 = Some x -> hd [] x <> [] ->
  run store0 [ERead pl st; EMean 0 0; ECopySurf 1; EDestroy 1; EDestroy 2] = UB /\ forall n, run store0 [ERead pl st; EMean 0 0; ECopySurf 1; EDestroy 1; ESurf 2 n] = UB.
Proof.
  intros D Qx Hx. destruct (read_step pl st c D) as (h & e & E & R). destruct (earr_elem k _ _ _ _ _ R Qx) as (e' & x' & N & M & Ea & Ed & Ok & El). cbn [fresh_arr ea_data] in Ed. injection Ed as <-.
  destruct (mean_ok k fadd fdiv of_int _ _ _ _ _ _ _ Ok El) as (Lm & Em). assert (Nz : N <> 0).
  { intros Nz. destruct x as [|hv x]; [apply Hx; reflexivity|]. destruct (layer_ok k _ _ _ _ _ _ _ 0%nat hv Ok El eq_refl) as (_ & _ & L & _). apply Hx. cbn [hd]. rewrite Nz in L. destruct hv; [reflexivity|discriminate]. }
  destruct (Z.eqb_spec N 0); [contradiction|]. set (p := (length h, 0%nat)) in *. set (h1 := h ++ [Some (means fadd fdiv of_int x)]) in *.
  assert (E1 : step {| st_heap := h; st_objs := [Some (CElems (fresh_arr e))] |} (EMean 0 0) = OK ({| st_heap := h1; st_objs := [Some (CElems (fresh_arr e)); Some (CSurf (Some p))] |}, Nothing)).
  { cbn [estep]. unfold elems_obj, get_obj. cbn [st_objs st_heap aget nth_error bind]. rewrite Ea. cbn [bind]. rewrite Em. reflexivity. }
  assert (E2 : step {| st_heap := h1; st_objs := [Some (CElems (fresh_arr e)); Some (CSurf (Some p))] |} (ECopySurf 1) = OK ({| st_heap := h1; st_objs := [Some (CElems (fresh_arr e)); Some (CSurf (Some p)); Some (CSurf (Some p))] |}, Nothing)) by reflexivity.
  assert (Hp : nth_error h1 (length h) = Some (Some (means fadd fdiv of_int x))) by (unfold h1; rewrite nth_error_app2, Nat.sub_diag by lia; reflexivity).
  assert (E3 : step {| st_heap := h1; st_objs := [Some (CElems (fresh_arr e)); Some (CSurf (Some p)); Some (CSurf (Some p))] |} (EDestroy 1) = OK ({| st_heap := replace h1 (length h) None; st_objs := [Some (CElems (fresh_arr e)); None; Some (CSurf (Some p))] |}, Nothing)).
  { cbn [estep]. unfold get_obj. cbn [st_objs st_heap aget nth_error bind h_free_opt]. unfold h_free. cbn [fst snd p]. rewrite (proj2 (aget_OK _ _ _) Hp). cbn [bind Nat.eqb]. rewrite aset_replace by (eapply nth_lt; eauto). reflexivity. }
  assert (Hf : nth_error (replace h1 (length h) None) (length h) = Some None) by (apply nth_replace_eq; eapply nth_lt; eauto).
  split; [|intros q]; rewrite (run_cons _ _ _ _ _ E), (run_cons _ _ _ _ _ E1), (run_cons _ _ _ _ _ E2), (run_cons _ _ _ _ _ E3), run_ub; try reflexivity; cbn [estep]; unfold surf_obj, get_obj; cbn [st_objs st_heap aget nth_error bind h_free_opt].
  - unfold h_free. cbn [fst snd p]. rewrite (proj2 (aget_OK _ _ _) Hf). reflexivity.
  - unfold h_read. cbn [p]. rewrite (proj2 (aget_OK _ _ _) Hf). reflexivity.
Qed.
(** What an array held is lost when another one is moved to it. *)
Lemma overwrite_lost pl st c pl2 st2 c2 : data_of src pl st c -> data_of src pl2 st2 c2 ->
  exists s rs b blk, run store0 [ERead pl st; ERead pl2 st2; EMoveTo 0 1; EDestroy 0; EDestroy 1] = OK (s, rs) /\ nth_error (st_heap s) b = Some (Some blk) /\ length blk = length c.
Proof.
  intros D D2. destruct (read_step pl st c D) as (h & e & E & R). destruct reads as (RD & _). destruct (RD h pl2 st2 c2 D2) as (ext & pl2' & e2 & Q2 & Er2 & R2 & F2 & _).
  assert (E1 : step {| st_heap := h; st_objs := [Some (CElems (fresh_arr e))] |} (ERead pl2 st2) = OK ({| st_heap := h ++ ext; st_objs := [Some (CElems (fresh_arr e)); Some (CElems (fresh_arr e2))] |}, Nothing)) by (cbn [estep st_heap]; rewrite Q2; cbn [bind]; rewrite Er2; reflexivity).
  assert (E2 : step {| st_heap := h ++ ext; st_objs := [Some (CElems (fresh_arr e)); Some (CElems (fresh_arr e2))] |} (EMoveTo 0 1) = OK ({| st_heap := h ++ ext; st_objs := [Some (CElems (fresh_arr e2)); Some (CElems no_elems)] |}, Nothing)) by reflexivity.
  destruct (destroy_any k (h ++ ext) (CElems (fresh_arr e2)) (VElems c2) R2) as (h' & Ed & _ & G).
  assert (E3 : step {| st_heap := h ++ ext; st_objs := [Some (CElems (fresh_arr e2)); Some (CElems no_elems)] |} (EDestroy 0) = OK ({| st_heap := h'; st_objs := [None; Some (CElems no_elems)] |}, Nothing)) by (cbn [estep]; unfold get_obj; cbn [st_objs st_heap aget nth_error bind]; rewrite Ed; reflexivity).
  assert (E4 : step {| st_heap := h'; st_objs := [None; Some (CElems no_elems)] |} (EDestroy 1) = OK ({| st_heap := h'; st_objs := [None; None] |}, Nothing)) by reflexivity.
  destruct R as (_ & _ & _ & _ & N & M & Ok). destruct Ok as (_ & _ & (blk & (_ & Hb) & Lb) & _). eexists _, _, (fst (el_block e)), blk. split.
  - rewrite (run_cons _ _ _ _ _ E), (run_cons _ _ _ _ _ E1), (run_cons _ _ _ _ _ E2), (run_cons _ _ _ _ _ E3), (run_cons _ _ _ _ _ E4). reflexivity.
  - cbn [st_heap]. split; [|exact Lb]. pose proof (nth_lt _ _ _ Hb) as Lt. rewrite G; [rewrite nth_error_app1 by exact Lt; exact Hb|]. intros I. apply F2 in I. lia.
Qed.
End Refuted.

(** Copies share the memory of the original: destroying both frees it twice (unless
    the elements have neither history variables nor additional points). *)
Theorem C91_copy_refuted : forall fadd fdiv of_int pl st c, ~ plain c ->
  (data_of shell_source pl st c -> erun shells fadd fdiv of_int store0 [ERead pl st; ECopyNew 0; EDestroy 0; EDestroy 1] = UB) /\
  (data_of thick_source pl st c -> erun thick_shells fadd fdiv of_int store0 [ERead pl st; ECopyNew 0; EDestroy 0; EDestroy 1] = UB).
Proof. intros fadd fdiv of_int pl st c NP. split; intros D; [eapply (copy_ub shells shell_source fadd fdiv of_int shells_reads)|eapply (copy_ub thick_shells thick_source fadd fdiv of_int thick_reads)]; eauto. Qed.
(** A copy of an empty array cannot be destroyed. *)
Theorem C91_empty_copy_refuted : forall fadd fdiv of_int pl st,
  (nothing_of shell_source pl st -> erun shells fadd fdiv of_int store0 [ERead pl st; ECopyNew 0; EDestroy 1] = UB) /\
  (nothing_of thick_source pl st -> erun thick_shells fadd fdiv of_int store0 [ERead pl st; ECopyNew 0; EDestroy 1] = UB).
Proof. intros fadd fdiv of_int pl st. split; intros D; [eapply (empty_copy_ub shells shell_source fadd fdiv of_int shells_reads)|eapply (empty_copy_ub thick_shells thick_source fadd fdiv of_int thick_reads)]; eauto. Qed.
(** Assigned to itself, an array loses its elements. *)
Theorem C91_self_copy_refuted : forall fadd fdiv of_int pl st c,
  (data_of shell_source pl st c -> erun shells fadd fdiv of_int store0 [ERead pl st; ECopyTo 0 0; EDestroy 0] = UB /\ erun shells fadd fdiv of_int store0 [ERead pl st; ECopyTo 0 0; EHist 0 0 0 0] = UB) /\
  (data_of thick_source pl st c -> erun thick_shells fadd fdiv of_int store0 [ERead pl st; ECopyTo 0 0; EDestroy 0] = UB /\ erun thick_shells fadd fdiv of_int store0 [ERead pl st; ECopyTo 0 0; EHist 0 0 0 0] = UB).
Proof. intros fadd fdiv of_int pl st c. split; intros D; [eapply (self_copy_ub shells shell_source fadd fdiv of_int shells_reads)|eapply (self_copy_ub thick_shells thick_source fadd fdiv of_int thick_reads)]; eauto. Qed.
(** A copy of a mean surface with history variables: freed twice; used after the original
    is destroyed.  This is what get_mean() does in Python (pybind11_d3plot.cpp:178, 228):
    the result is copied into the Python object, then destroyed. *)
Theorem C91_mean_copy_refuted : forall fadd fdiv of_int pl st c x, nth_error c 0 = Some x -> hd [] x <> [] ->
  (data_of shell_source pl st c -> erun shells fadd fdiv of_int store0 [ERead pl st; EMean 0 0; ECopySurf 1; EDestroy 1; EDestroy 2] = UB /\ forall n, erun shells fadd fdiv of_int store0 [ERead pl st; EMean 0 0; ECopySurf 1; EDestroy 1; ESurf 2 n] = UB) /\
  (data_of thick_source pl st c -> erun thick_shells fadd fdiv of_int store0 [ERead pl st; EMean 0 0; ECopySurf 1; EDestroy 1; EDestroy 2] = UB /\ forall n, erun thick_shells fadd fdiv of_int store0 [ERead pl st; EMean 0 0; ECopySurf 1; EDestroy 1; ESurf 2 n] = UB).
Proof. intros fadd fdiv of_int pl st c x Qx Hx. split; intros D; [eapply (surf_copy_ub shells shell_source fadd fdiv of_int shells_reads)|eapply (surf_copy_ub thick_shells thick_source fadd fdiv of_int thick_reads)]; eauto. Qed.
(** The elements an array held are lost when another array is moved to it. *)
Theorem C91_overwrite_refuted : forall fadd fdiv of_int pl st c pl2 st2 c2,
  (data_of shell_source pl st c -> data_of shell_source pl2 st2 c2 -> exists s rs b blk, erun shells fadd fdiv of_int store0 [ERead pl st; ERead pl2 st2; EMoveTo 0 1; EDestroy 0; EDestroy 1] = OK (s, rs) /\ nth_error (st_heap s) b = Some (Some blk) /\ length blk = length c) /\
  (data_of thick_source pl st c -> data_of thick_source pl2 st2 c2 -> exists s rs b blk, erun thick_shells fadd fdiv of_int store0 [ERead pl st; ERead pl2 st2; EMoveTo 0 1; EDestroy 0; EDestroy 1] = OK (s, rs) /\ nth_error (st_heap s) b = Some (Some blk) /\ length blk = length c).
Proof. intros fadd fdiv of_int pl st c pl2 st2 c2. split; intros D D2; [eapply (overwrite_lost shells shell_source fadd fdiv of_int shells_reads)|eapply (overwrite_lost thick_shells thick_source fadd fdiv of_int thick_reads)]; eauto. Qed.
(** The index of an integration point of a thick shell is taken modulo 256: 256 is taken
    for 0 and accepted, that of a shell is not. *)
Theorem C91_thick_index_refuted : forall h e x, add_hist thick_shells h e x 256 = add_hist thick_shells h e x 0.
Proof. intros h e x. reflexivity. Qed.
(** An array of beams frees the structs only: the integration points and the history
    variables are lost. *)
Lemma beam_ips_hist nip nhv i d : forall vs j ips hist o ips' hist' o', beam_ips nip nhv i d vs j ips hist o = OK (ips', hist', o') -> length hist' = length hist.
Proof.
  induction vs as [|v vs IH]; intros j ips hist o ips' hist' o' E; cbn [beam_ips] in E; [injection E as <- <- <-; reflexivity|].
  destruct (take d o nhv) as [h| |]; try discriminate. cbn [bind] in E. destruct (D3ElemModel.store hist _ h) as [h1| |] eqn:E1; try discriminate. cbn [bind] in E. destruct (D3ElemModel.store ips _ _) as [i1| |]; try discriminate. cbn [bind] in E.
  apply IH in E. rewrite E. exact (store_length _ _ _ _ E1).
Qed.
Lemma beam_loop_hist nip nhv avg d : forall n i ips hist o l ips' hist' o', beam_loop nip nhv avg d n i ips hist o = OK (l, ips', hist', o') -> length hist' = length hist.
Proof.
  induction n as [|n IH]; intros i ips hist o l ips' hist' o' E; cbn [beam_loop] in E; [injection E as <- <- <- <-; reflexivity|].
  destruct (take d o 6); try discriminate. cbn [bind] in E. destruct (beam_values _ _ _) as [[vs o1]| |]; try discriminate. cbn [bind] in E.
  do 3 (match type of E with context [take ?d ?o ?n] => destruct (take d o n); try discriminate end; cbn [bind] in E; match type of E with context [D3ElemModel.store ?m ?o ?v] => let Q := fresh "Q" in destruct (D3ElemModel.store m o v) eqn:Q; try discriminate; apply store_length in Q end; cbn [bind] in E).
  destruct (beam_ips _ _ _ _ _ _ _ _ _) as [[[i2 h2] o2]| |] eqn:E2; try discriminate. cbn [bind] in E. destruct (beam_loop _ _ _ _ _ _ _ _ _) as [[[[l3 i3] h3] o3]| |] eqn:E3; try discriminate. cbn [bind] in E. injection E as <- <- <- <-.
  apply IH in E3. apply beam_ips_hist in E2. congruence.
Qed.
Lemma beams_hists pl s pl' l ips hs : read_beams_state pl s = OK (pl', Some (l, ips, hs)) -> length hs = Z.to_nat (pl_cd pl NEL2 * u8 (pl_cd pl NEIPB) * (3 + u8 (pl_cd pl BEAMIP))).
Proof.
  unfold read_beams_state. change (pl_cd (clear pl)) with (pl_cd pl). destruct (pl_cd pl NEL2 =? 0); [discriminate|]. destruct (state_at (clear pl) s); [|discriminate]. destruct (_ || _); [discriminate|].
  destruct (state_words_at _ _ _ _) as [[pl1 [d|]]| |]; cbn [bind]; try discriminate. destruct (beam_loop _ _ _ _ _ _ _ _ _) as [[[[l1 i1] h1] o1]| |] eqn:E; try discriminate. cbn [bind].
  destruct (o1 =? _); [|discriminate]. intros [= <- <- <- <-]. apply beam_loop_hist in E. rewrite E. apply repeat_length.
Qed.
Lemma lost_eq n (h ext : heap) blk : n = Z.of_nat (length blk) -> In (Some blk) ext -> lost n h (h ++ ext).
Proof. intros -> I. apply lost_app. exact I. Qed.
Theorem C91_beams_refuted : forall h pl s h1 pl' e, 0 <= pl_cd pl NEL2 -> read_beams_mem h pl s = OK (h1, pl', Some e) ->
  exists h2, beams_destroy h1 e = OK h2 /\ lost (pl_cd pl NEL2 * u8 (pl_cd pl BEAMIP)) h h2 /\ lost (pl_cd pl NEL2 * u8 (pl_cd pl NEIPB) * (3 + u8 (pl_cd pl BEAMIP))) h h2.
Proof.
  intros h pl s h1 pl' e Hn E. pose proof (beams_mem_ok h pl s Hn) as M. destruct (read_beams_state pl s) as [[pl2 [[[l ips] hs]|]]| |] eqn:Q; [|destruct M as (h' & Q' & _); rewrite Q' in E; discriminate|rewrite M in E; discriminate|rewrite M in E; discriminate].
  destruct M as (h' & e' & Q' & _ & _ & Eh & Hp & (_ & _ & Eb & Ep) & _). rewrite Q' in E. injection E as <- <- <-. apply beams_hists in Q. unfold beams_destroy. rewrite Eb, Ep, h_free_app. cbn [h_free fst snd aget nth_error bind Nat.eqb aset].
  assert (0 <= u8 (pl_cd pl BEAMIP)) by (apply Z.mod_pos_bound; lia). assert (0 <= u8 (pl_cd pl NEIPB)) by (apply Z.mod_pos_bound; lia).
  eexists. split; [reflexivity|]. split.
  - eapply lost_eq; [|left; reflexivity]. unfold room, malloc. rewrite repeat_length, Z2Nat.id by nia. reflexivity.
  - eapply lost_eq; [|right; left; reflexivity]. rewrite map_length, Eh, Q, Z2Nat.id by (apply Z.mul_nonneg_nonneg; nia). reflexivity.
Qed.

Lemma no_copy v o : match o with ECopyNew _ | ECopyTo _ _ | ECopySurf _ => False | _ => True end -> copies_fit v o.
Proof.
  intros H. split; [|split].
  - intros j c [-> |(i & ->)] _; destruct H.
  - intros i ->. destruct H.
  - intros j l -> _. destruct H.
Qed.
Lemma no_write v o : match o with EMoveTo _ _ | ECopyTo _ _ => False | _ => True end -> overwrites_nothing v o.
Proof. intros H i j c [-> | ->] _; destruct H. Qed.
(** The index of an integration point of a shell is not. *)
Theorem C91_shell_point : forall fadd fdiv of_int pl st c x i n k, data_of shell_source pl st c -> nth_error c i = Some x -> (length x - 3 <= k)%nat -> Z.of_nat k < 2 ^ 64 ->
  exists s, erun shells fadd fdiv of_int store0 [ERead pl st; EAddHist 0 i (Z.of_nat k) n] = OK (s, [Nothing; Thrown]).
Proof.
  intros fadd fdiv of_int pl st c x i n k D Qx Lx Lk.
  apply (C91_shells_partial fadd fdiv of_int _ _ [Some (VElems c)]). eapply VR_step; [apply no_copy; exact I|apply (V_read shell_source (2 ^ 64) fadd fdiv of_int []); exact D|].
  eapply VR_step; [apply no_copy; exact I|eapply V_add_outside; [reflexivity|exact Qx|lia|lia]|apply VR_done].
Qed.

(** ** The hypotheses can be met *)
Lemma rich4_data pl : opened rich4 148 [189; 374] pl -> data_of shell_source pl 0 [[[3981463545572229120]; [3981498729944317952]; [3981533914316406784]; [3981569098688495616]]].
Proof. intros O. exists rich4, 148, [189; 374], 189, 1. split; [exact O|]. split; [reflexivity|]. split; [vm_compute; reflexivity|]. split; [vm_compute; reflexivity|]. split; [right; reflexivity|]. split; [vm_compute; discriminate|]. split; vm_compute; reflexivity. Qed.
Lemma rich3_data pl : opened rich3 148 [189; 358] pl -> exists c x y, data_of thick_source pl 0 c /\ nth_error c 0 = Some x /\ nth_error (hd [] x) 0 = Some y /\ length x = 3%nat.
Proof.
  intros O. eexists _, _, _. split; [exists rich3, 148, [189; 358], 189, 1; split; [exact O|]; split; [reflexivity|]; split; [vm_compute; reflexivity|]; split; [vm_compute; reflexivity|]; split; [left; vm_compute; reflexivity|]; split; [vm_compute; reflexivity|reflexivity]|].
  split; [vm_compute; reflexivity|]. split; vm_compute; reflexivity.
Qed.
Lemma shell_data_shape pl st c x : data_of shell_source pl st c -> In x c -> length x = Z.to_nat (nip (shape_of pl)) /\ length (hd [] x) = Z.to_nat (nhv (shape_of pl)).
Proof.
  intros (b & titles & states & p & is & O & _ & _ & _ & _ & H3 & _ & ->) I. rewrite (shape_opened _ _ _ _ O). unfold each in I. apply in_map_iff in I as (i & <- & _). cbn [the_shape nip nhv w_ips shell_spec]. rewrite map_length, each_length. split; [reflexivity|].
  unfold each. destruct (Z.to_nat (ips_of b)) eqn:E; [lia|]. cbn [seq map hd surface_spec v_history]. unfold nums. rewrite map_length. apply stretch_length.
Qed.
Lemma rich4_full pl st : opened rich4 148 [189; 374] pl -> reads_full shell_source (ERead pl st).
Proof.
  intros O pl' st' c x [= <- <-] D I. destruct (shell_data_shape _ _ _ _ D I) as (L & H). rewrite (shape_opened _ _ _ _ O) in L, H. change (nip _) with (ips_of rich4) in L. change (nhv _) with (cval rich4 NEIPS) in H. replace (ips_of rich4) with 4 in L by (vm_compute; reflexivity).
  replace (cval rich4 NEIPS) with 1 in H by (vm_compute; reflexivity). rewrite L. split; [discriminate|]. intros E. rewrite E in H. discriminate.
Qed.
Definition a_program (pl : plot) : list eop :=
  [ERead pl 0; ERead pl 7; EHist 0 0 2 0; EHist 0 0 0 1; EAddHist 0 0 0 0; EAddHist 0 0 1 0; EMean 0 0; ESurf 1 0; EMeanHist 0 0; ENum 2 0; EMoveNew 0; ESize 0; ESize 3; EHist 3 1 0 0; EDestroy 1; EDestroy 0; EDestroy 2; EDestroy 3].
Definition what_it_sees : list seen :=
  [Nothing; Thrown; Value 3981533914316406784; Thrown; Value 3981569098688495616; Thrown; Nothing; Value 3981516322130362368; Nothing; Value 3981516322130362368; Nothing; Size 0; Size 1; Thrown; Nothing; Nothing; Nothing; Nothing].
Example C91_case : exists pl, opened rich4 148 [189; 374] pl /\
  evrun shell_source (2 ^ 64) Z.add Z.div (fun n => n) (fun v o => neat v o /\ reads_full shell_source o) [] (a_program pl) what_it_sees [None; None; None; None].
Proof.
  destruct rich4_opened as (pl & O). exists pl. split; [exact O|]. unfold a_program, what_it_sees.
  assert (NR : forall o, match o with ERead _ _ => False | _ => True end -> reads_full shell_source o) by (intros o H ? ? ? ? -> ; destruct H).
  Ltac ok NR := split; [split; [apply no_copy; exact I|apply no_write; exact I]|first [apply NR; exact I|apply rich4_full; assumption]].
  eapply VR_step; [ok NR|apply V_read; exact (rich4_data _ O)|]. cbn [app].
  eapply VR_step; [ok NR|apply V_read_broken; exists rich4, 148, [189; 374]; split; [exact O|split; [vm_compute; reflexivity|left; cbn; lia]]|].
  eapply VR_step; [ok NR|eapply V_hist; [reflexivity|reflexivity|lia|reflexivity|reflexivity]|].
  eapply VR_step; [ok NR|eapply V_hist_none; [reflexivity|reflexivity|lia|reflexivity|cbn; lia]|].
  eapply VR_step; [ok NR|eapply V_add; [reflexivity|reflexivity|lia|reflexivity|reflexivity]|].
  eapply VR_step; [ok NR|eapply V_add_outside; [reflexivity|reflexivity|lia|cbn; lia]|].
  eapply VR_step; [ok NR|eapply V_mean; reflexivity|]. cbn [app].
  eapply VR_step; [ok NR|eapply V_surf; [reflexivity|vm_compute; reflexivity]|].
  eapply VR_step; [ok NR|eapply V_mean_hist; reflexivity|]. cbn [app].
  eapply VR_step; [ok NR|eapply V_num; [reflexivity|vm_compute; reflexivity]|].
  eapply VR_step; [ok NR|eapply V_move_new; reflexivity|]. cbn [app replace].
  eapply VR_step; [ok NR|eapply (V_size _ _ _ _ _ _ _ []); reflexivity|].
  eapply VR_step; [ok NR|eapply (V_size _ _ _ _ _ _ _ [_]); reflexivity|].
  eapply VR_step; [ok NR|eapply V_hist_range; [reflexivity|cbn; lia]|].
  do 4 (eapply VR_step; [ok NR|eapply V_destroy; reflexivity|cbn [replace]]). apply VR_done.
Qed.
(** Without history variables: copies are possible. *)
Definition bare_shells : dbuf := rich [(35, 0); (33, 45); (42, 33)] 163.
Example C91_copy_case : exists pl, opened bare_shells 148 [189; 352] pl /\
  evrun shell_source (2 ^ 64) Z.add Z.div (fun n => n) neat [] [ERead pl 1; ECopyNew 0; EMean 0 0; ECopySurf 2; EDestroy 0; EHist 1 0 0 0; EDestroy 1; EDestroy 2; EDestroy 3]
    [Nothing; Nothing; Nothing; Nothing; Nothing; Thrown; Nothing; Nothing; Nothing] [None; None; None; None] /\
  evrun thick_source 256 Z.add Z.div (fun n => n) neat [] [ERead pl 1; ECopyNew 0; EDestroy 0; EHist 1 0 0 0; EDestroy 1] [Nothing; Nothing; Nothing; Thrown; Nothing] [None; None].
Proof.
  assert (X : exists pl, opened bare_shells 148 [189; 352] pl) by (change [189; 352] with [189; 189 + 163]; prove_opened bare_shells 163). destruct X as (pl & O). exists pl. split; [exact O|].
  assert (D : data_of shell_source pl 1 [[[]; []; []]]).
  { exists bare_shells, 148, [189; 352], 352, 1. split; [exact O|]. split; [reflexivity|]. split; [vm_compute; reflexivity|]. split; [vm_compute; reflexivity|]. split; [right; reflexivity|]. split; [vm_compute; discriminate|]. split; vm_compute; reflexivity. }
  assert (T : data_of thick_source pl 1 [[[]; []; []]]).
  { exists bare_shells, 148, [189; 352], 352, 1. split; [exact O|]. split; [reflexivity|]. split; [vm_compute; reflexivity|]. split; [vm_compute; reflexivity|]. split; [left; vm_compute; reflexivity|]. split; vm_compute; reflexivity. }
  assert (Pl : plain [[[]; []; []]]) by (split; [discriminate|]; intros x [<- |[]]; reflexivity).
  assert (Cp : forall v j, nth_error v j = Some (Some (VElems [[[]; []; []]])) -> neat v (ECopyNew j)).
  { intros v j Q. split; [|apply no_write; exact I]. split; [|split; [discriminate|discriminate]]. intros j' c [[= <-]|(i & [=])] Q'. rewrite Q in Q'. injection Q' as <-. exact Pl. }
  assert (Cs : forall v j, nth_error v j = Some (Some (VSurf [])) -> neat v (ECopySurf j)).
  { intros v j Q. split; [|apply no_write; exact I]. split; [|split; [discriminate|]]; [intros j' c [[=]|(i & [=])]|]. intros j' l [= <-] Q'. rewrite Q in Q'. injection Q' as <-. reflexivity. }
  Ltac ok2 := split; [apply no_copy; exact I|apply no_write; exact I].
  split.
  - eapply VR_step; [ok2|apply V_read; exact D|]. cbn [app]. eapply VR_step; [apply Cp; reflexivity|eapply V_copy_new; reflexivity|]. cbn [app].
    eapply VR_step; [ok2|eapply V_mean; reflexivity|]. change (means _ _ _ _) with (@nil Z). cbn [app]. eapply VR_step; [apply Cs; reflexivity|eapply V_copy_surf; reflexivity|]. cbn [app].
    eapply VR_step; [ok2|eapply V_destroy; reflexivity|]. cbn [replace]. eapply VR_step; [ok2|eapply V_hist_none; [reflexivity|reflexivity|lia|reflexivity|cbn; lia]|].
    do 3 (eapply VR_step; [ok2|eapply V_destroy; reflexivity|cbn [replace]]). apply VR_done.
  - eapply VR_step; [ok2|apply V_read; exact T|]. cbn [app]. eapply VR_step; [apply Cp; reflexivity|eapply V_copy_new; reflexivity|]. cbn [app].
    eapply VR_step; [ok2|eapply V_destroy; reflexivity|]. cbn [replace]. eapply VR_step; [ok2|eapply V_hist_none; [reflexivity|reflexivity|lia|reflexivity|cbn; lia]|].
    eapply VR_step; [ok2|eapply V_destroy; reflexivity|cbn [replace]]. apply VR_done.
Qed.
(** The cases that go wrong. *)
Example C91_refuted_case : exists pl c x, data_of shell_source pl 0 c /\ ~ plain c /\ nth_error c 0 = Some x /\ hd [] x <> [].
Proof.
  destruct rich4_opened as (pl & O). eexists pl, _, _. split; [exact (rich4_data _ O)|]. split; [intros (_ & P); specialize (P _ (or_introl eq_refl)); discriminate|]. split; [reflexivity|discriminate].
Qed.
Definition no_shells : dbuf := plot_of [control_words (sample_settings ++ [(31, 0); (32, 0); (33, 0); (39, 25)]) ++ firstn 15 geometry_words ++
  ([2 ^ 32 - 1; 0; 0; 0; 0; 2; 1; 0; 0; 0; 0; 0; 0; 0; 0; 2] ++ [11; 12] ++ [21] ++ [41; 42; 41; 42; 0; 0]) ++ [EOF32] ++ title_words ++ [EOF32; 0; 0]; firstn 41 (state_words 1000) ++ [EOF32; 0]].
Lemma no_shells_opened : exists pl, opened no_shells 107 [148] pl.
Proof.
  apply open_sample; [|prove_regular|].
  - constructor;
    [split; [apply of_sound|split; [vm_compute; reflexivity|left; reflexivity]]
    |apply of_aligned|reflexivity|apply of_bytes|left; vm_compute; reflexivity|vm_compute; reflexivity|right; vm_compute; reflexivity|apply digits01; vm_compute; reflexivity
    |decide_le|decide_le|apply zeros; vm_compute; reflexivity|decide_le|left; vm_compute; reflexivity|vm_compute; reflexivity|intros A; vm_compute in A; discriminate A|vm_compute; discriminate
    |intros _; repeat split; vm_compute; reflexivity|split; [split; decide_le|vm_compute; reflexivity]].
  - exists 146, 148. split; [|split; [apply (file_in_end no_shells 0); vm_compute; reflexivity|]].
    + replace (marker_pos no_shells + 1) with 105 by (vm_compute; reflexivity). apply bl_parts; [split; decide_le|lia|vm_compute; reflexivity| |].
      * change (105 + 1) with 106. unfold below. vm_compute. reflexivity.
      * replace (105 + 2 + wd no_shells (105 + 1) * (1 + 72 / d_ws no_shells)) with 145 by (vm_compute; reflexivity). change 146 with (145 + 1). change (105 + 2) with 107. apply bl_end; [split; decide_le|vm_compute; reflexivity].
    + apply st_state; [split; decide_le|vm_compute; reflexivity|unfold below; vm_compute; reflexivity|]. replace (148 + state_size no_shells) with 189 by (vm_compute; reflexivity).
      apply st_end with (q := 191); [split; decide_le|vm_compute; reflexivity|]. apply (file_in_end no_shells 1). vm_compute. reflexivity.
Qed.
Example C91_empty_case : exists pl, nothing_of shell_source pl 0 /\ nothing_of thick_source pl 0.
Proof. destruct no_shells_opened as (pl & O). exists pl. split; exists no_shells, 107, [148]; (split; [exact O|vm_compute; reflexivity]). Qed.
Example C91_beams_case : exists pl h1 pl' e, 0 <= pl_cd pl NEL2 /\ read_beams_mem [] pl 0 = OK (h1, pl', Some e).
Proof. destruct C90_beams_case as ((pl & h1 & pl' & e & O & E & _) & _). exists pl, h1, pl', e. split; [exact (nel2_nn _ _ _ _ O)|exact E]. Qed.

Print Assumptions C91_shells_partial.
Print Assumptions C91_thick_shells_partial.
Print Assumptions C91_memory_partial.
Print Assumptions C91_copy_refuted.
Print Assumptions C91_empty_copy_refuted.
Print Assumptions C91_self_copy_refuted.
Print Assumptions C91_mean_copy_refuted.
Print Assumptions C91_overwrite_refuted.
Print Assumptions C91_thick_index_refuted.
Print Assumptions C91_shell_point.
Print Assumptions C91_beams_refuted.
