(** * Proofs about the C++ objects for element states *)
From Verif Require Import CBase CBaseFacts BinModel D3BufModel D3BufSpec D3Model D3Spec D3ReadModel D3ReadSpec D3ElemModel D3ElemSpec D3LayerProofs D3MeanProofs CppArrayModel CppArraySpec CppArrayProofs OwnModel OwnProofs ElemMemModel ElemMemSpec ElemMemProofs CppStateModel CppStateSpec.
Open Scope Z_scope.

Definition holds (h : heap) (p : ptr) (blk : list Z) : Prop := snd p = 0%nat /\ nth_error h (fst p) = Some (Some blk).
Lemma all_at {A} : forall (l : list (option A)) r, all l = Some r -> forall n y, nth_error r n = Some y -> nth_error l n = Some (Some y).
Proof.
  induction l as [|[x|] l IH]; intros r E n y Q; cbn [all] in E; [injection E as <-; destruct n; discriminate| |discriminate].
  destruct (all l) as [t|]; [|discriminate]. injection E as <-. destruct n as [|n]; cbn [nth_error] in *; [congruence|]. eauto.
Qed.
Lemma see_at {A} (m : cells A) off n r : see m off n = Some r -> 0 <= off /\ off + n <= Z.of_nat (length m) /\ forall i y, nth_error r i = Some y -> nth_error m (Z.to_nat off + i) = Some (Some y).
Proof.
  unfold see. destruct ((0 <=? off) && (off + n <=? Z.of_nat (length m))) eqn:E; [|discriminate]. apply andb_prop in E as (E1 & E2). apply Z.leb_le in E1, E2. intros Q. split; [exact E1|]. split; [exact E2|].
  intros i y I. pose proof (all_at _ _ Q i y I) as G. assert (Li : (i < Z.to_nat n)%nat) by (apply nth_lt in G; rewrite firstn_length in G; lia). rewrite firstn_nth in G by exact Li. rewrite skipn_nth in G. exact G.
Qed.

Section Kind.
Context {A : Type} (k : kind A).

Definition owned (e : elems A) : list (option ptr) :=
  match el_structs e with
  | x :: _ => match l_mid (k_layers k x) with Some s => [surface_hist e s; struct_adds e (k_layers k x); Some (el_block e)] | None => [] end
  | [] => []
  end.
Definition eblocks (a : earr A) : list nat := match ea_data a with Some e => ptr_blocks (owned e) | None => [] end.
Definition cblocks (o : cobj A) : list nat :=
  match o with CElems a => eblocks a | CSurf p => ptr_blocks [p] | CNums a => ptr_blocks [a_data a] end.

Definition element_ok (e : elems A) (N M : Z) (x : A) (lv : element) : Prop :=
  k_nhv k x = N /\ k_nadd k x = M /\ exists ips, see_layers (el_hists e) (el_adds e) N M (k_layers k x) = Some ips /\ map v_history ips = lv /\ Forall (fun v => length (v_sigma v) = 6%nat) ips.
Definition data_ok (h : heap) (e : elems A) (c : list element) (N M : Z) : Prop :=
  0 <= N /\ 0 <= M /\
  (exists blk, holds h (el_block e) blk /\ length blk = length c) /\
  (N <> 0 -> holds h (el_hist e) (map number (el_hists e))) /\
  (M <> 0 -> exists p blk, el_add e = Some p /\ holds h p blk /\ length blk = length (el_adds e)) /\
  (forall i x lv, nth_error (el_structs e) i = Some x -> nth_error c i = Some lv -> element_ok e N M x lv) /\
  (exists x s, nth_error (el_structs e) 0 = Some x /\ l_mid (k_layers k x) = Some s /\ sf_hist s = (if N =? 0 then None else Some 0) /\ l_add (k_layers k x) = (if M =? 0 then None else Some 0)) /\
  NoDup (ptr_blocks (owned e)).
Definition erep (h : heap) (a : earr A) (c : list element) : Prop :=
  match ea_data a with
  | None => c = [] /\ ea_size a = 0%nat
  | Some e => c <> [] /\ ea_size a = length c /\ ea_del a = true /\ length (el_structs e) = length c /\ exists N M, data_ok h e c N M
  end.
Definition nrep (h : heap) (p : option ptr) (l : list Z) : Prop := match p with None => l = [] | Some p => l <> [] /\ holds h p l end.
Definition crep (h : heap) (o : cobj A) (v : cvalue) : Prop :=
  match o, v with
  | CElems a, VElems c => erep h a c
  | CSurf p, VSurf l => nrep h p l
  | CNums a, VNums l => a_size a = length l /\ a_del a = true /\ nrep h (a_data a) l
  | _, _ => False
  end.

Lemma owned_eq h e c N M : data_ok h e c N M -> exists x s, nth_error (el_structs e) 0 = Some x /\ l_mid (k_layers k x) = Some s /\ owned e = [surface_hist e s; struct_adds e (k_layers k x); Some (el_block e)] /\
  surface_hist e s = (if N =? 0 then None else Some (at_off (el_hist e) 0)) /\ struct_adds e (k_layers k x) = (if M =? 0 then None else option_map (fun p => at_off p 0) (el_add e)).
Proof.
  intros (_ & _ & _ & _ & _ & _ & (x & s & Qx & Qs & Hs & Ha) & _). exists x, s. split; [exact Qx|]. split; [exact Qs|]. split; [|split].
  - unfold owned. destruct (el_structs e) as [|y l]; [discriminate|]. injection Qx as ->. rewrite Qs. reflexivity.
  - unfold surface_hist. rewrite Hs. destruct (N =? 0); reflexivity.
  - unfold struct_adds. rewrite Ha. destruct (M =? 0); [reflexivity|]. destruct (el_add e); reflexivity.
Qed.
Lemma at_off0 p blk h : holds h p blk -> at_off p 0 = p.
Proof. destruct p as [b o]. intros (Z0 & _). cbn in *. subst o. reflexivity. Qed.
(** The blocks of an array: the structs, the history variables, the additional integration
    points. *)
Lemma block_cases h e c N M b : data_ok h e c N M -> In b (ptr_blocks (owned e)) ->
  (b = fst (el_block e) \/ (N <> 0 /\ b = fst (el_hist e)) \/ (M <> 0 /\ exists p, el_add e = Some p /\ b = fst p)).
Proof.
  intros D I. destruct (owned_eq _ _ _ _ _ D) as (x & s & _ & _ & E & Hh & Ha). pose proof D as (_ & _ & _ & Hn & Hm & _). rewrite E, Hh, Ha in I. apply in_ptr_blocks in I as (o & [I|[I|[I|[]]]]).
  - destruct (Z.eqb_spec N 0) as [|Nz]; [discriminate|]. right. left. split; [exact Nz|]. unfold at_off in I. injection I as <- _. reflexivity.
  - destruct (Z.eqb_spec M 0) as [|Mz]; [discriminate|]. right. right. split; [exact Mz|]. destruct (el_add e) as [p|]; [|discriminate]. unfold at_off in I. injection I as <- _. eauto.
  - left. injection I as I. rewrite I. reflexivity.
Qed.
Lemma in_owned h e c N M : data_ok h e c N M -> In (fst (el_block e)) (ptr_blocks (owned e)) /\ (N <> 0 -> In (fst (el_hist e)) (ptr_blocks (owned e))) /\ (M <> 0 -> forall p, el_add e = Some p -> In (fst p) (ptr_blocks (owned e))).
Proof.
  intros D. destruct (owned_eq _ _ _ _ _ D) as (x & s & _ & _ & E & Hh & Ha). rewrite E, Hh, Ha. split; [|split].
  - apply in_ptr_blocks. exists (snd (el_block e)). right. right. left. destruct (el_block e); reflexivity.
  - intros Nz. apply in_ptr_blocks. destruct (Z.eqb_spec N 0) as [|_]; [contradiction|]. eexists. left. unfold at_off. reflexivity.
  - intros Mz p Q. apply in_ptr_blocks. destruct (Z.eqb_spec M 0) as [|_]; [contradiction|]. rewrite Q. eexists. right. left. unfold at_off. reflexivity.
Qed.

Lemma holds_frame h h' p blk : holds h p blk -> nth_error h' (fst p) = nth_error h (fst p) -> holds h' p blk.
Proof. intros (Z0 & Q) F. split; [exact Z0|congruence]. Qed.
Lemma data_frame h h' e c N M : data_ok h e c N M -> (forall b, In b (ptr_blocks (owned e)) -> nth_error h' b = nth_error h b) -> data_ok h' e c N M.
Proof.
  intros D F. destruct (in_owned _ _ _ _ _ D) as (I1 & I2 & I3). destruct D as (N0 & M0 & (blk & Hb & Lb) & Hn & Hm & Rest). split; [exact N0|]. split; [exact M0|]. split; [|split; [|split; [|exact Rest]]].
  - exists blk. split; [|exact Lb]. eapply holds_frame; eauto.
  - intros Nz. eapply holds_frame; eauto.
  - intros Mz. destruct (Hm Mz) as (p & blk' & Qp & Hp & Lp). exists p, blk'. split; [exact Qp|]. split; [|exact Lp]. eapply holds_frame; eauto.
Qed.
Lemma nrep_frame h h' p l : nrep h p l -> (forall b, In b (ptr_blocks [p]) -> nth_error h' b = nth_error h b) -> nrep h' p l.
Proof. destruct p as [[b o]|]; [|auto]. intros (N0 & H) F. split; [exact N0|]. eapply holds_frame; [exact H|]. apply F. left. reflexivity. Qed.
Lemma crep_frame h h' a w : crep h a w -> (forall b, In b (cblocks a) -> nth_error h' b = nth_error h b) -> crep h' a w.
Proof.
  destruct a as [a|p|a], w as [c|l|l]; try solve [intros []]; cbn [crep cblocks].
  - unfold erep, eblocks. destruct (ea_data a) as [e|]; [|auto]. intros R F. destruct R as (C0 & Sz & Dl & Ls & N & M & D). repeat (split; [assumption|]). exists N, M. eapply data_frame; eauto.
  - intros R F. eapply nrep_frame; eauto.
  - intros R F. destruct R as (Sz & Dl & R). repeat (split; [assumption|]). eapply nrep_frame; eauto.
Qed.
Lemma crep_live h a w b : crep h a w -> In b (cblocks a) -> exists c, nth_error h b = Some (Some c).
Proof.
  assert (G : forall p l, nrep h p l -> In b (ptr_blocks [p]) -> exists c, nth_error h b = Some (Some c)).
  { intros [[b' o]|] l R I; [|destruct I]. destruct I as [<-|[]]. destruct R as (_ & _ & Q). eauto. }
  destruct a as [a|p|a], w as [c|l|l]; try solve [intros []]; cbn [crep cblocks]; intros R I.
  - unfold erep, eblocks in *. destruct (ea_data a) as [e|]; [|destruct I]. destruct R as (C0 & Sz & Dl & Ls & N & M & D).
    destruct (block_cases _ _ _ _ _ _ D I) as [->|[(Nz & ->)|(Mz & p & Qp & ->)]].
    + destruct D as (_ & _ & (blk & (_ & Q) & _) & _). eauto.
    + destruct D as (_ & _ & _ & Hn & _). destruct (Hn Nz). eauto.
    + destruct D as (_ & _ & _ & _ & Hm & _). destruct (Hm Mz) as (p' & blk & Qp' & (_ & Q) & _). rewrite Qp in Qp'. injection Qp' as <-. eauto.
  - eapply G; eauto.
  - destruct R as (Sz & Dl & R). eapply G; eauto.
Qed.
Lemma empty_rep h : crep h (CElems no_elems) (VElems []).
Proof. split; reflexivity. Qed.

Notation cinv := (inv cblocks crep).
Notation ccov := (covered cblocks).

(** ** Elements *)
Lemma earr_range h a c i : erep h a c -> (length c <= i)%nat -> earr_at h a i = OK None.
Proof.
  intros R L. assert (Sz : ea_size a = length c) by (unfold erep in R; destruct (ea_data a); [apply R|destruct R as (-> & ->); reflexivity]). unfold earr_at. rewrite Sz.
  destruct (Nat.eqb_spec (length c) 0) as [|N0]; [reflexivity|]. destruct (Nat.ltb_spec (length c - 1) i); [reflexivity|lia].
Qed.
Lemma earr_elem h a c i lv : erep h a c -> nth_error c i = Some lv -> exists e x N M, earr_at h a i = OK (Some (e, x)) /\ ea_data a = Some e /\ data_ok h e c N M /\ element_ok e N M x lv.
Proof.
  intros R Q. pose proof (nth_lt _ _ _ Q) as Li. unfold erep in R. destruct (ea_data a) as [e|] eqn:Ed; [|destruct R as (-> & _); cbn in Li; lia]. destruct R as (C0 & Sz & Dl & Ls & N & M & D).
  destruct (nth_error (el_structs e) i) as [x|] eqn:Qx; [|apply nth_error_None in Qx; lia]. pose proof D as (_ & _ & (blk & (Ob & Hb) & Lb) & _ & _ & El & _).
  exists e, x, N, M. split; [|split; [reflexivity|split; [exact D|eapply El; eauto]]]. unfold earr_at. rewrite Sz, Ed. destruct (Nat.eqb_spec (length c) 0); [lia|]. destruct (Nat.ltb_spec (length c - 1) i); [lia|]. cbn [orb].
  destruct (el_block e) as [b o]. cbn [fst snd] in *. subst o. unfold h_read. rewrite (proj2 (aget_OK _ _ _) Hb). cbn [bind Nat.add].
  destruct (nth_error blk i) as [y|] eqn:Qy; [|apply nth_error_None in Qy; lia]. rewrite (proj2 (aget_OK _ _ _) Qy). cbn [bind]. rewrite (proj2 (aget_OK _ _ _) Qx). reflexivity.
Qed.

Lemma element_layers e N M x lv : element_ok e N M x lv -> 0 <= M -> length lv = (3 + Z.to_nat M)%nat.
Proof. intros (_ & _ & ips & Sl & <- & _) M0. rewrite map_length. exact (proj1 (see_layers_at Z.add Z.add Z.opp _ _ _ _ _ _ Sl)). Qed.
Lemma layer_ok h e c N M x lv l hv : data_ok h e c N M -> element_ok e N M x lv -> nth_error lv l = Some hv ->
  exists p, layer_hist k h e x l = OK p /\ length hv = Z.to_nat N /\ (forall n y, nth_error hv n = Some y -> h_read h p n = OK y) /\ exists r, h_slice h p (Z.to_nat N) = OK r.
Proof.
  intros D E Q. pose proof (element_layers _ _ _ _ _ E ltac:(apply D)) as Ll. destruct E as (Nx & Mx & ips & Sl & <- & _). rewrite nth_error_map in Q. destruct (nth_error ips l) as [w|] eqn:Qw; [|discriminate]. injection Q as <-.
  destruct (see_layers_at Z.add Z.add Z.opp _ _ _ _ _ _ Sl) as (Li & At). specialize (At l w Qw). destruct (pointed (el_adds e) (k_layers k x) l) as [s|] eqn:Ep; [|discriminate].
  pose proof D as (N0 & M0 & _ & Hn & Hm & _).
  assert (P : layer_hist k h e x l = OK (surface_hist e s)).
  { destruct l as [|[|[|i]]]; cbn [pointed] in Ep; cbn [layer_hist]; try (rewrite Ep; reflexivity).
    destruct (l_add (k_layers k x)) as [a|] eqn:Ea; [|discriminate]. destruct (Z.leb_spec 0 a) as [A0|]; [|discriminate]. destruct (nth_error (el_adds e) (Z.to_nat a + i)) as [[s'|]|] eqn:En; try discriminate. injection Ep as ->.
    assert (Mz : M <> 0) by (pose proof (nth_lt _ _ _ Qw); lia). destruct (Hm Mz) as ([b o] & blk & Qp & (Ob & Hb) & Lb). cbn [fst snd] in *. subst o.
    unfold struct_adds. rewrite Ea, Qp. unfold at_off. cbn [fst snd Nat.add]. unfold h_read. rewrite (proj2 (aget_OK _ _ _) Hb). cbn [bind].
    destruct (nth_error blk (Z.to_nat a + i)) as [y|] eqn:Qy; [|apply nth_error_None in Qy; apply nth_lt in En; lia]. rewrite (proj2 (aget_OK _ _ _) Qy). cbn [bind]. rewrite (proj2 (aget_OK _ _ _) En). reflexivity. }
  exists (surface_hist e s). split; [exact P|]. unfold see_surface in At. destruct (Z.eqb_spec N 0) as [Nz|Nz].
  - injection At as <-. cbn [v_history]. rewrite Nz. split; [reflexivity|]. split; [intros [|n]; discriminate|]. exists []. reflexivity.
  - destruct (sf_hist s) as [off|] eqn:Es; [|discriminate]. destruct (see (el_hists e) off N) as [r|] eqn:Er; [|discriminate]. injection At as <-. cbn [v_history].
    destruct (see_at _ _ _ _ Er) as (O0 & O1 & At). assert (Lr : length r = Z.to_nat N) by (eapply see_length; eassumption || exact Z.add || exact Z.opp). split; [exact Lr|]. destruct (Hn Nz) as (Oh & Hh). destruct (el_hist e) as [b o] eqn:Eh. cbn [fst snd] in *. subst o.
    unfold surface_hist. rewrite Es, Eh. cbn [option_map]. unfold at_off. cbn [fst snd Nat.add]. split.
    + intros n y Qn. unfold h_read. rewrite (proj2 (aget_OK _ _ _) Hh). cbn [bind]. apply aget_OK. rewrite nth_error_map, (At n y Qn). reflexivity.
    + unfold h_slice. destruct (Nat.eqb_spec (Z.to_nat N) 0); [eauto|]. rewrite (proj2 (aget_OK _ _ _) Hh). cbn [bind]. rewrite map_length. destruct (Nat.leb_spec (Z.to_nat off + Z.to_nat N) (length (el_hists e))); [eauto|lia].
Qed.
Lemma store_eta {B} (s : OwnModel.store B) : {| st_heap := st_heap s; st_objs := st_objs s |} = s.
Proof. destruct s; reflexivity. Qed.
Lemma view_ok h e c N M x lv l hv n : data_ok h e c N M -> element_ok e N M x lv -> nth_error lv l = Some hv ->
  exists p, layer_hist k h e x l = OK p /\ view_get h (hist_view k x p) n = OK (h, match nth_error hv n with Some y => Value y | None => Thrown end).
Proof.
  intros D E Q. destruct (layer_ok _ _ _ _ _ _ _ _ _ D E Q) as (p & P & L & R & _). exists p. split; [exact P|]. destruct E as (Nx & _). unfold view_get, arr_destroy, arr_get, hist_view. cbn [a_size a_data a_del]. rewrite get_range, Nx, <- L.
  destruct (nth_error hv n) as [y|] eqn:Qn.
  - pose proof (nth_lt _ _ _ Qn). destruct (Nat.ltb_spec n (length hv)); [|lia]. cbn [negb]. rewrite (R _ _ Qn). cbn [bind]. destruct p; reflexivity.
  - apply nth_error_None in Qn. destruct (Nat.ltb_spec n (length hv)); [lia|]. cbn [negb bind]. destruct p; reflexivity.
Qed.

(** ** Means *)
Lemma mean_reads_ok h e c N M x lv : data_ok h e c N M -> element_ok e N M x lv -> forall n j, (j + n <= length lv)%nat -> mean_reads k h e x n j = OK tt.
Proof.
  intros D E. induction n as [|n IH]; intros j L; [reflexivity|]. cbn [mean_reads]. destruct (nth_error lv j) as [hv|] eqn:Q; [|apply nth_error_None in Q; lia].
  destruct (layer_ok _ _ _ _ _ _ _ _ _ D E Q) as (p & -> & _ & _ & (r & Sr)). cbn [bind]. destruct E as (Nx & E'). rewrite Nx, Sr. cbn [bind]. apply IH. lia.
Qed.
Lemma means_length fadd fdiv of_int x : length (means fadd fdiv of_int x) = length (hd [] x).
Proof. unfold means. rewrite map_length, seq_length. reflexivity. Qed.
Lemma mean_ok fadd fdiv of_int h e c N M x lv : data_ok h e c N M -> element_ok e N M x lv ->
  length (means fadd fdiv of_int lv) = Z.to_nat N /\
  mean_hist k fadd fdiv of_int h e x = OK (if N =? 0 then (h, None) else (h ++ [Some (means fadd fdiv of_int lv)], Some (length h, 0%nat))).
Proof.
  intros D E. pose proof (element_layers _ _ _ _ _ E ltac:(apply D)) as Ll. destruct (nth_error lv 0) as [hv|] eqn:Q0; [|apply nth_error_None in Q0; lia].
  destruct (layer_ok _ _ _ _ _ _ _ _ _ D E Q0) as (_ & _ & Lh & _). assert (Hd : hd [] lv = hv) by (destruct lv; [discriminate|]; injection Q0 as ->; reflexivity).
  split; [rewrite means_length, Hd; exact Lh|]. unfold mean_hist. pose proof E as (Nx & Mx & ips & Sl & Ml & F6). pose proof D as (N0 & M0 & _).
  rewrite (mean_reads_ok _ _ _ _ _ _ _ D E) by lia. cbn [bind]. rewrite Nx, Mx, (get_mean_ok fadd fdiv of_int _ _ _ _ N0 M ips M0 Sl F6). cbn [bind mean_view]. destruct (N =? 0); [reflexivity|]. unfold h_malloc.
  replace (map (fun n => mean_of fadd fdiv of_int (map (fun v => nth n (v_history v) 0) ips)) (seq 0 (Z.to_nat N))) with (means fadd fdiv of_int lv); [reflexivity|].
  unfold means. rewrite Hd, Lh. apply map_ext. intros n. f_equal. rewrite <- Ml, map_map. reflexivity.
Qed.

(** ** Destruction *)
Lemma destroy_elems h a c : erep h a c -> exists h', earr_destroy k h a = OK h' /\ (forall b, In b (eblocks a) -> nth_error h' b = Some None) /\ (forall b, ~ In b (eblocks a) -> nth_error h' b = nth_error h b).
Proof.
  unfold erep, earr_destroy, eblocks. destruct (ea_data a) as [e|]; [|intros _; exists h; split; [destruct (ea_del a); reflexivity|]; split; [intros b []|reflexivity]].
  intros (C0 & Sz & -> & Ls & N & M & D). destruct (owned_eq _ _ _ _ _ D) as (x & s & Qx & Qs & Eo & Hh & Ha). pose proof D as (_ & _ & (blk & (Ob & Hb) & Lb) & Hn & Hm & _ & _ & Nd).
  cbn [free_elems]. destruct (el_block e) as [bb bo] eqn:Eb. cbn [fst snd] in *. subst bo. unfold h_read. rewrite (proj2 (aget_OK _ _ _) Hb). cbn [bind Nat.add].
  destruct (nth_error blk 0) as [y|] eqn:Qy; [|apply nth_error_None in Qy; destruct c; [congruence|cbn [length] in *; lia]]. rewrite (proj2 (aget_OK _ _ _) Qy). cbn [bind]. rewrite (proj2 (aget_OK _ _ _) Qx). cbn [bind]. rewrite Qs. cbn [init bind]. rewrite <- Eo.
  destruct (free_all_ok (owned e) h Nd) as (h' & E' & _ & F & G); [|exists h'; auto].
  intros b o I. rewrite Eo, Hh, Ha in I. destruct I as [I|[I|[I|[]]]].
  - destruct (Z.eqb_spec N 0) as [|Nz]; [discriminate|]. destruct (Hn Nz) as (Oh & Qh). destruct (el_hist e) as [b1 o1]. cbn [fst snd] in *. subst o1. injection I as <- <-. split; [reflexivity|eauto].
  - destruct (Z.eqb_spec M 0) as [|Mz]; [discriminate|]. destruct (Hm Mz) as ([b1 o1] & blk' & Qp & (Op & Qb) & _). cbn [fst snd] in *. subst o1. rewrite Qp in I. cbn in I. injection I as <- <-. split; [reflexivity|eauto].
  - injection I as <- <-. split; [reflexivity|eauto].
Qed.
Lemma destroy_nums h p l : nrep h p l -> exists h', h_free_opt h p = OK h' /\ (forall b, In b (ptr_blocks [p]) -> nth_error h' b = Some None) /\ (forall b, ~ In b (ptr_blocks [p]) -> nth_error h' b = nth_error h b).
Proof.
  destruct p as [[b o]|]; intros R; [|exists h; repeat split; intros b []]. destruct R as (_ & O0 & Q). cbn [fst snd] in *. subst o. destruct (free_all_ok [Some (b, 0%nat)] h) as (h' & E & _ & F & G).
  - repeat constructor; intros [].
  - intros b' o' [I|[]]. injection I as <- <-. eauto.
  - exists h'. cbn [h_free_all] in E. destruct (h_free_opt h (Some (b, 0%nat))) as [h1| |]; try discriminate. cbn [bind] in E. injection E as <-. auto.
Qed.
Lemma destroy_any h o v : crep h o v -> exists h', match o with CElems a => earr_destroy k h a | CSurf p => h_free_opt h p | CNums a => arr_destroy h a end = OK h' /\
  (forall b, In b (cblocks o) -> nth_error h' b = Some None) /\ (forall b, ~ In b (cblocks o) -> nth_error h' b = nth_error h b).
Proof.
  destruct o as [a|p|a], v as [c|l|l]; try solve [intros []]; cbn [crep cblocks]; intros R.
  - eapply destroy_elems; eauto.
  - eapply destroy_nums; eauto.
  - destruct R as (_ & Dl & R). destruct (destroy_nums _ _ _ R) as (h' & E & F). exists h'. split; [|exact F]. unfold arr_destroy. rewrite Dl. destruct (a_data a); exact E.
Qed.

(** ** Copies of plain arrays *)
Lemma plain_shape h e c N M : data_ok h e c N M -> length (el_structs e) = length c -> plain c -> N = 0 /\ M = 0.
Proof.
  intros D Ls (C0 & P). destruct c as [|lv c]; [congruence|]. assert (lv = [[]; []; []]) as -> by (apply P; left; reflexivity). destruct (nth_error (el_structs e) 0) as [x|] eqn:Qx; [|apply nth_error_None in Qx; cbn [length] in Ls; lia].
  pose proof D as (N0 & M0 & _ & _ & _ & El & _). pose proof (El 0%nat x _ Qx eq_refl) as E. pose proof (element_layers _ _ _ _ _ E M0) as L. cbn [length] in L.
  destruct (layer_ok _ _ _ _ _ _ _ 0%nat [] D E eq_refl) as (_ & _ & Lh & _). cbn [length] in Lh. lia.
Qed.
Lemma copy_ok h a c : erep h a c -> plain c -> exists blk, earr_copy h a = OK (h ++ [Some blk], {| ea_data := option_map (fun e => with_block e (length h, 0%nat)) (ea_data a); ea_size := length c; ea_del := true |}) /\
  erep (h ++ [Some blk]) {| ea_data := option_map (fun e => with_block e (length h, 0%nat)) (ea_data a); ea_size := length c; ea_del := true |} c /\
  eblocks {| ea_data := option_map (fun e => with_block e (length h, 0%nat)) (ea_data a); ea_size := length c; ea_del := true |} = [length h].
Proof.
  intros R P. unfold erep in R. destruct (ea_data a) as [e|] eqn:Ed; [|destruct P as (C0 & _), R; contradiction]. destruct R as (C0 & Sz & Dl & Ls & N & M & D). destruct (plain_shape _ _ _ _ _ D Ls P) as (-> & ->).
  destruct (owned_eq _ _ _ _ _ D) as (x & s & Qx & Qs & Eo & Hh & Ha). cbn [Z.eqb] in Hh, Ha.
  pose proof D as (N0 & M0 & (blk & (Ob & Hb) & Lb) & _ & _ & El & Fi & _). exists blk. unfold earr_copy. rewrite Ed, Sz. cbn [option_map].
  assert (Sl : h_slice h (Some (el_block e)) (length c) = OK blk) by (destruct (el_block e) as [b o]; cbn [fst snd] in *; subst o; rewrite <- Lb; apply slice_holds; exact Hb). rewrite Sl. cbn [bind]. unfold h_malloc.
  split; [reflexivity|].
  assert (Ow : owned (with_block e (length h, 0%nat)) = [None; None; Some (length h, 0%nat)]).
  { unfold owned. cbn [with_block el_structs]. destruct (el_structs e) as [|y l]; [discriminate|]. injection Qx as ->. rewrite Qs. unfold surface_hist, struct_adds in *. cbn [with_block el_hist el_add el_block]. rewrite Hh, Ha. reflexivity. }
  split; [|cbn [eblocks ea_data]; rewrite Ow; reflexivity]. unfold erep. cbn [ea_data ea_size ea_del]. do 3 (split; [first [assumption|reflexivity]|]). split; [exact Ls|]. exists 0, 0.
  split; [lia|]. split; [lia|]. split; [|split; [congruence|split; [congruence|split; [exact El|split; [exact Fi|]]]]].
  - exists blk. split; [|exact Lb]. split; [reflexivity|]. cbn [with_block el_block fst]. rewrite nth_error_app2, Nat.sub_diag by lia. reflexivity.
  - rewrite Ow. repeat constructor. intros [].
Qed.
End Kind.

(** ** Blocks that count

    Blocks of which [keep] does not hold are ignored. *)
Section Hide.
Context {A : Type} (blocks : A -> list nat) (keep : list Z -> bool).
Definition hide (h : heap) : heap := map (fun b => match b with Some c => if keep c then Some c else None | None => None end) h.
Definition kcovered (s : OwnModel.store A) : Prop := covered blocks {| st_heap := hide (st_heap s); st_objs := st_objs s |}.
Lemma hide_at h b c : nth_error (hide h) b = Some (Some c) <-> nth_error h b = Some (Some c) /\ keep c = true.
Proof.
  unfold hide. rewrite nth_error_map. destruct (nth_error h b) as [[x|]|]; cbn [option_map]; [|split; [discriminate|intros (Q & _); discriminate]..].
  destruct (keep x) eqn:K; split.
  - intros [= ->]. auto.
  - intros ([= ->] & _). reflexivity.
  - discriminate.
  - intros ([= ->] & E). congruence.
Qed.
Lemma hide_app h l : hide (h ++ l) = hide h ++ hide l.
Proof. apply map_app. Qed.
Lemma hide_length h : length (hide h) = length h.
Proof. apply map_length. Qed.
Lemma kcovered_iff s : kcovered s <-> forall b c, nth_error (st_heap s) b = Some (Some c) -> keep c = true -> exists j o, nth_error (st_objs s) j = Some o /\ In b (oblocks blocks o).
Proof.
  split.
  - intros C b c Q K. apply C. exists c. apply hide_at. auto.
  - intros C b (c & Q). apply hide_at in Q as (Q & K). eapply C; eauto.
Qed.
Lemma kcovered_fresh s ext a : kcovered s -> (forall b c, nth_error ext b = Some (Some c) -> keep c = true -> In (length (st_heap s) + b)%nat (blocks a)) -> kcovered (new_obj s (st_heap s ++ ext) a).
Proof.
  intros C F. unfold kcovered. cbn [new_obj st_heap st_objs]. rewrite hide_app. apply (covered_fresh blocks {| st_heap := hide (st_heap s); st_objs := st_objs s |}); [exact C|].
  intros b c Q. apply hide_at in Q as (Q & K). cbn [st_heap]. rewrite hide_length. eapply F; eauto.
Qed.
Lemma kcovered_fresh_put s ext j a o : kcovered s -> nth_error (st_objs s) j = Some o -> oblocks blocks o = [] ->
  (forall b c, nth_error ext b = Some (Some c) -> keep c = true -> In (length (st_heap s) + b)%nat (blocks a)) ->
  kcovered {| st_heap := st_heap s ++ ext; st_objs := replace (st_objs s) j (Some a) |}.
Proof.
  intros C Qj B F. unfold kcovered. cbn [st_heap st_objs]. rewrite hide_app. apply (covered_fresh_put blocks {| st_heap := hide (st_heap s); st_objs := st_objs s |} _ _ _ o); [exact C|exact Qj|exact B|].
  intros b c Q. apply hide_at in Q as (Q & K). cbn [st_heap]. rewrite hide_length. eapply F; eauto.
Qed.
Lemma kcovered_move_new s j a e : kcovered s -> nth_error (st_objs s) j = Some (Some a) -> kcovered {| st_heap := st_heap s; st_objs := replace (st_objs s) j (Some e) ++ [Some a] |}.
Proof. intros C Qa. exact (covered_move_new blocks {| st_heap := hide (st_heap s); st_objs := st_objs s |} j a e C Qa). Qed.
Lemma kcovered_move_to s i j a e o : kcovered s -> i <> j -> nth_error (st_objs s) j = Some (Some a) -> nth_error (st_objs s) i = Some o -> oblocks blocks o = [] ->
  kcovered {| st_heap := st_heap s; st_objs := replace (replace (st_objs s) i (Some a)) j (Some e) |}.
Proof. intros C N Qa Qi B. exact (covered_move_to blocks {| st_heap := hide (st_heap s); st_objs := st_objs s |} i j a e o C N Qa Qi B). Qed.
Lemma kcovered_destroy s j a h : kcovered s -> nth_error (st_objs s) j = Some (Some a) ->
  (forall b, In b (blocks a) -> nth_error h b = Some None) -> (forall b, ~ In b (blocks a) -> nth_error h b = nth_error (st_heap s) b) ->
  kcovered {| st_heap := h; st_objs := replace (st_objs s) j None |}.
Proof.
  intros C Qa F G. apply (covered_destroy blocks {| st_heap := hide (st_heap s); st_objs := st_objs s |} j a (hide h)); [exact C|exact Qa| |].
  - intros b I. unfold hide. rewrite nth_error_map, (F b I). reflexivity.
  - intros b I. cbn [st_heap]. unfold hide. rewrite !nth_error_map, (G b I). reflexivity.
Qed.
Lemma kcovered_ext s ext : kcovered s -> (forall b blk, nth_error ext b <> Some (Some blk)) -> kcovered {| st_heap := st_heap s ++ ext; st_objs := st_objs s |}.
Proof.
  intros C F. apply kcovered_iff. intros b c Q K. cbn [st_heap st_objs] in *. destruct (Nat.lt_ge_cases b (length (st_heap s))) as [Lb|Lb].
  - rewrite nth_error_app1 in Q by exact Lb. apply kcovered_iff with (c := c); assumption.
  - rewrite nth_error_app2 in Q by exact Lb. destruct (F _ _ Q).
Qed.
Lemma kcovered_store0 : kcovered store0.
Proof. intros b (c & Q). destruct b; discriminate. Qed.
End Hide.

(** ** Steps *)
Section Steps.
Context {A : Type} (k : kind A) (src : source) (lim : Z) (fadd fdiv : Z -> Z -> Z) (of_int : Z -> Z).
Hypothesis index_ok : forall i, 0 <= i < lim -> k_index k i = i.
Definition fresh_arr (e : elems A) : earr A := {| ea_data := Some e; ea_size := length (el_structs e); ea_del := true |}.
Definition reads_ok : Prop :=
  (forall h pl st c, data_of src pl st c -> exists ext pl' e, k_mem k h pl st = OK (h ++ ext, pl', Some e) /\ pl_err pl' = None /\ erep k (h ++ ext) (fresh_arr e) c /\
    (forall b, In b (eblocks k (fresh_arr e)) -> (length h <= b)%nat) /\
    (forall b blk, nth_error ext b = Some (Some blk) -> blk <> [] \/ (forall x, In x c -> length x <> 3%nat /\ hd [] x <> []) -> In (length h + b)%nat (eblocks k (fresh_arr e)))) /\
  (forall h pl st, nothing_of src pl st -> exists pl', k_mem k h pl st = OK (h, pl', None) /\ pl_err pl' = None) /\
  (forall h pl st, broken src pl st -> exists ext pl' e, k_mem k h pl st = OK (h ++ ext, pl', None) /\ pl_err pl' = Some e /\ (forall b blk, nth_error ext b <> Some (Some blk))).
Hypothesis reads : reads_ok.
Notation cinv := (inv (cblocks k) (crep k)).
Notation ccov keep := (kcovered (cblocks k) keep).
Notation frame := (crep_frame k).
Notation lives := (crep_live k).
Notation step := (estep k fadd fdiv of_int).

Lemma get_elems s v j c : cinv s v -> nth_error v j = Some (Some (VElems c)) -> exists a, nth_error (st_objs s) j = Some (Some (CElems a)) /\ erep k (st_heap s) a c /\ elems_obj s j = OK a.
Proof.
  intros I N. destruct (inv_get _ _ s v j _ I N) as (o & Q & R & G). destruct o as [a|p|a]; try destruct R. exists a. split; [exact Q|]. split; [exact R|]. unfold elems_obj. rewrite G. reflexivity.
Qed.
Lemma get_surf s v j l : cinv s v -> nth_error v j = Some (Some (VSurf l)) -> exists p, nth_error (st_objs s) j = Some (Some (CSurf p)) /\ nrep (st_heap s) p l /\ surf_obj s j = OK p.
Proof.
  intros I N. destruct (inv_get _ _ s v j _ I N) as (o & Q & R & G). destruct o as [a|p|a]; try destruct R. exists p. split; [exact Q|]. split; [exact R|]. unfold surf_obj. rewrite G. reflexivity.
Qed.
Lemma empty_blocks h a : erep k h a [] -> eblocks k a = [].
Proof. unfold erep, eblocks. destruct (ea_data a); [intros (C0 & _); congruence|reflexivity]. Qed.
(** Blocks that nobody owns may be appended. *)
Lemma inv_ext s v ext : cinv s v -> cinv {| st_heap := st_heap s ++ ext; st_objs := st_objs s |} v.
Proof.
  intros I. pose proof I as (L & R & D). split; [exact L|]. split; [|exact D]. intros j o w Qo Qw. cbn [st_heap st_objs] in *. eapply (orep_frame (cblocks k) (crep k) frame lives); [eapply R; eauto|].
  intros b Ib. apply nth_error_app1. exact (inv_block_lt (cblocks k) (crep k) frame lives s v j o b I Qo Ib).
Qed.
Lemma mean_rep h N l : length l = Z.to_nat N -> 0 <= N -> let '(h', p) := if N =? 0 then (h, None) else (h ++ [Some l], Some (length h, 0%nat)) in
  exists ext, h' = h ++ ext /\ nrep h' p l /\ (forall b, In b (ptr_blocks [p]) -> (length h <= b)%nat) /\ (forall b blk, nth_error ext b = Some (Some blk) -> In (length h + b)%nat (ptr_blocks [p])).
Proof.
  intros Ll N0. destruct (Z.eqb_spec N 0) as [->|Nz].
  - exists []. rewrite app_nil_r. split; [reflexivity|]. split; [destruct l; [reflexivity|discriminate]|]. split; [intros b []|]. intros [|b]; discriminate.
  - exists [Some l]. split; [reflexivity|]. split; [split; [intros ->; cbn in Ll; lia|split; [reflexivity|cbn [fst]; rewrite nth_error_app2, Nat.sub_diag by lia; reflexivity]]|]. split; [intros b [<-|[]]; lia|].
    intros [|b] blk Q; [left; lia|destruct b; discriminate].
Qed.

Lemma step_ok s v o r v' : cinv s v -> evstep src lim fadd fdiv of_int v o r v' -> copies_fit v o -> exists s', step s o = OK (s', r) /\ cinv s' v' /\ (forall keep, ccov keep s -> overwrites_nothing v o -> (keep [] = false \/ reads_full src o) -> ccov keep s').
Proof.
  intros I St (CF & CS & CU). destruct reads as (RD & RN & RB).
  destruct St as [pl st c Q|pl st Q|pl st Q|j c N|j c N|i j c d N Ni Ne|i j c d N Ni|j c N|j i l n c x lv y N Qx Ll Ql Qn|j i l n c x lv N Qx Ll Ql Qn|j i l n c N Li|j i l n c x lv y N Qx Lm Ql Qn|j i l n c x lv N Qx Lm Ql Qn|j i l n c x N Qx Lm Ql|j i l n c N Li|j i c x N Qx|j i c x N Qx|j i c N Li|j i c N Li|j l N|j n l y N Qn|j n l y N Qn|j n l N Qn|j w N]; cbn [estep].
  - destruct (RD (st_heap s) pl st c Q) as (ext & pl' & e & -> & Er & R & F & C). cbn [bind]. rewrite Er. eexists. split; [reflexivity|]. split.
    + apply (inv_fresh _ _ frame lives); [exact I|exact R|exact F].
    + intros keep Cv _ T. apply kcovered_fresh; [exact Cv|]. intros b blk Qb Kb. apply (C b blk Qb). destruct T as [T|T]; [left; intros ->; congruence|right; intros x Ix; exact (T pl st c x eq_refl Q Ix)].
  - destruct (RN (st_heap s) pl st Q) as (pl' & -> & Er). cbn [bind]. rewrite Er. eexists. split; [reflexivity|]. split.
    + replace (st_heap s) with (st_heap s ++ []) by apply app_nil_r. apply (inv_fresh _ _ frame lives); [exact I|split; reflexivity|intros b []].
    + intros keep Cv _ _. replace (st_heap s) with (st_heap s ++ []) by apply app_nil_r. apply kcovered_fresh; [exact Cv|]. intros [|b]; discriminate.
  - destruct (RB (st_heap s) pl st Q) as (ext & pl' & e & -> & Er & F). cbn [bind]. rewrite Er. eexists. split; [reflexivity|]. split; [apply inv_ext; exact I|]. intros keep Cv _ _. apply kcovered_ext; assumption.
  - destruct (get_elems s v j c I N) as (a & Qa & Ra & ->). cbn [bind]. unfold put_obj. rewrite aset_replace by (eapply nth_lt; eauto). cbn [bind]. eexists. split; [reflexivity|]. unfold new_obj. cbn [st_heap st_objs]. split.
    + eapply (inv_move_new _ _ frame lives); eauto; try apply empty_rep.
    + intros keep Cv _ _. apply kcovered_move_new; assumption.
  - destruct (get_elems s v j c I N) as (a & Qa & Ra & ->). cbn [bind]. destruct (copy_ok k _ _ _ Ra (CF j c (or_introl eq_refl) N)) as (blk & -> & Rc & Bc). cbn [bind]. eexists. split; [reflexivity|]. split.
    + apply (inv_fresh _ _ frame lives); [exact I|exact Rc|]. cbn [cblocks]. rewrite Bc. intros b [<-|[]]. lia.
    + intros keep Cv _ _. apply kcovered_fresh; [exact Cv|]. cbn [cblocks]. rewrite Bc. intros [|b] blk' Qb _; [left; lia|destruct b; discriminate].
  - destruct (get_elems s v j c I N) as (a & Qa & Ra & ->). destruct (get_elems s v i d I Ni) as (ai & Qi & Ri & ->). cbn [bind]. unfold put_obj. rewrite aset_replace by (eapply nth_lt; eauto). cbn [bind st_objs st_heap].
    rewrite aset_replace by (rewrite replace_length; eapply nth_lt; eauto). cbn [bind]. eexists. split; [reflexivity|]. split.
    + eapply (inv_move_to _ _ frame lives); [exact I|exact Ne|eapply nth_lt; eauto|exact Qa|exact N|reflexivity|apply empty_rep].
    + intros keep Cv T _. pose proof (T i j d (or_introl eq_refl) Ni) as ->. eapply kcovered_move_to; eauto. cbn [oblocks cblocks]. exact (empty_blocks _ _ Ri).
  - destruct (get_elems s v j c I N) as (a & Qa & Ra & ->). destruct (get_elems s v i d I Ni) as (ai & Qi & Ri & ->). cbn [bind].
    destruct (Nat.eqb_spec i j) as [->|Ne]; [exfalso; exact (CS j eq_refl)|]. destruct (copy_ok k _ _ _ Ra (CF j c (or_intror (ex_intro _ i eq_refl)) N)) as (blk & -> & Rc & Bc). cbn [bind].
    unfold put_obj. rewrite aset_replace by (eapply nth_lt; eauto). cbn [bind]. eexists. split; [reflexivity|]. split.
    + apply (inv_fresh_put _ _ frame lives); [exact I|eapply nth_lt; eauto|exact Rc|]. cbn [cblocks]. rewrite Bc. intros b [<-|[]]. lia.
    + intros keep Cv T _. pose proof (T i j d (or_intror eq_refl) Ni) as ->. eapply kcovered_fresh_put; eauto; [cbn [oblocks cblocks]; exact (empty_blocks _ _ Ri)|]. cbn [cblocks]. rewrite Bc. intros [|b] blk' Qb _; [left; lia|destruct b; discriminate].
  - destruct (get_elems s v j c I N) as (a & Qa & Ra & ->). cbn [bind]. replace (ea_size a) with (length c); [eauto|]. unfold erep in Ra. destruct (ea_data a); [symmetry; apply Ra|destruct Ra as (-> & ->); reflexivity].
  - destruct (get_elems s v j c I N) as (a & Qa & Ra & ->). cbn [bind]. destruct (earr_elem k _ _ _ _ _ Ra Qx) as (e & x' & N' & M' & -> & _ & D & E). cbn [bind]. destruct (Nat.ltb_spec 2 l); [lia|].
    destruct (view_ok k _ _ _ _ _ _ _ _ _ n D E Ql) as (p & -> & G). cbn [bind]. rewrite G, Qn. cbn [bind]. rewrite store_eta. eauto.
  - destruct (get_elems s v j c I N) as (a & Qa & Ra & ->). cbn [bind]. destruct (earr_elem k _ _ _ _ _ Ra Qx) as (e & x' & N' & M' & -> & _ & D & E). cbn [bind]. destruct (Nat.ltb_spec 2 l); [lia|].
    destruct (view_ok k _ _ _ _ _ _ _ _ _ n D E Ql) as (p & -> & G). cbn [bind]. rewrite G, (proj2 (nth_error_None lv n) Qn). cbn [bind]. rewrite store_eta. eauto.
  - destruct (get_elems s v j c I N) as (a & Qa & Ra & ->). cbn [bind]. rewrite (earr_range k _ _ _ _ Ra Li). cbn [bind]. eauto.
  - destruct (get_elems s v j c I N) as (a & Qa & Ra & ->). cbn [bind]. destruct (earr_elem k _ _ _ _ _ Ra Qx) as (e & x' & N' & M' & -> & _ & D & E). cbn [bind]. unfold add_hist. rewrite (index_ok l Lm). pose proof (element_layers k _ _ _ _ _ E ltac:(apply D)) as Lx. pose proof (nth_lt _ _ _ Ql) as L3.
    destruct (view_ok k _ _ _ _ _ _ _ _ _ n D E Ql) as (p & P & G). destruct E as (_ & Mx & _). rewrite Mx. destruct (Z.leb_spec M' l); [lia|]. rewrite P. cbn [bind]. rewrite G, Qn. cbn [bind]. rewrite store_eta. eauto.
  - destruct (get_elems s v j c I N) as (a & Qa & Ra & ->). cbn [bind]. destruct (earr_elem k _ _ _ _ _ Ra Qx) as (e & x' & N' & M' & -> & _ & D & E). cbn [bind]. unfold add_hist. rewrite (index_ok l Lm). pose proof (element_layers k _ _ _ _ _ E ltac:(apply D)) as Lx. pose proof (nth_lt _ _ _ Ql) as L3.
    destruct (view_ok k _ _ _ _ _ _ _ _ _ n D E Ql) as (p & P & G). destruct E as (_ & Mx & _). rewrite Mx. destruct (Z.leb_spec M' l); [lia|]. rewrite P. cbn [bind]. rewrite G, (proj2 (nth_error_None lv n) Qn). cbn [bind]. rewrite store_eta. eauto.
  - destruct (get_elems s v j c I N) as (a & Qa & Ra & ->). cbn [bind]. destruct (earr_elem k _ _ _ _ _ Ra Qx) as (e & x' & N' & M' & -> & _ & D & E). cbn [bind]. unfold add_hist. rewrite (index_ok l Lm). pose proof (element_layers k _ _ _ _ _ E ltac:(apply D)) as Lx.
    destruct E as (_ & Mx & _). rewrite Mx. assert (0 <= M') by apply D. destruct (Z.leb_spec M' l); [|lia]. cbn [bind]. eauto.
  - destruct (get_elems s v j c I N) as (a & Qa & Ra & ->). cbn [bind]. rewrite (earr_range k _ _ _ _ Ra Li). cbn [bind]. eauto.
  - destruct (get_elems s v j c I N) as (a & Qa & Ra & ->). cbn [bind]. destruct (earr_elem k _ _ _ _ _ Ra Qx) as (e & x' & N' & M' & -> & _ & D & E). cbn [bind]. destruct (mean_ok k fadd fdiv of_int _ _ _ _ _ _ _ D E) as (Lm & ->). cbn [bind].
    pose proof (mean_rep (st_heap s) N' _ Lm ltac:(apply D)) as G. destruct (if N' =? 0 then _ else _) as [h' p]. destruct G as (ext & -> & R & F & C). eexists. split; [reflexivity|]. split.
    + apply (inv_fresh _ _ frame lives); [exact I|exact R|exact F].
    + intros keep Cv _ _. apply kcovered_fresh; [exact Cv|intros b blk Qb _; exact (C b blk Qb)].
  - destruct (get_elems s v j c I N) as (a & Qa & Ra & ->). cbn [bind]. destruct (earr_elem k _ _ _ _ _ Ra Qx) as (e & x' & N' & M' & -> & _ & D & E). cbn [bind]. destruct (mean_ok k fadd fdiv of_int _ _ _ _ _ _ _ D E) as (Lm & ->). cbn [bind].
    pose proof (mean_rep (st_heap s) N' _ Lm ltac:(apply D)) as G. destruct (if N' =? 0 then _ else _) as [h' p]. destruct G as (ext & -> & R & F & C). eexists. split; [reflexivity|]. split.
    + apply (inv_fresh _ _ frame lives); [exact I| |exact F]. cbn [crep a_size a_del a_data]. split; [|split; [reflexivity|exact R]]. destruct E as (-> & _). symmetry. exact Lm.
    + intros keep Cv _ _. apply kcovered_fresh; [exact Cv|intros b blk Qb _; exact (C b blk Qb)].
  - destruct (get_elems s v j c I N) as (a & Qa & Ra & ->). cbn [bind]. rewrite (earr_range k _ _ _ _ Ra Li). cbn [bind]. eauto.
  - destruct (get_elems s v j c I N) as (a & Qa & Ra & ->). cbn [bind]. rewrite (earr_range k _ _ _ _ Ra Li). cbn [bind]. eauto.
  - destruct (get_surf s v j l I N) as (p & Qa & Ra & ->). cbn [bind]. pose proof (CU j l eq_refl N) as ->. assert (p = None) as -> by (destruct p; [destruct Ra; congruence|reflexivity]). eexists. split; [reflexivity|]. split.
    + replace (st_heap s) with (st_heap s ++ []) by apply app_nil_r. apply (inv_fresh _ _ frame lives); [exact I|reflexivity|intros b []].
    + intros keep Cv _ _. replace (st_heap s) with (st_heap s ++ []) by apply app_nil_r. apply kcovered_fresh; [exact Cv|]. intros [|b]; discriminate.
  - destruct (get_surf s v j l I N) as (p & Qa & Ra & ->). cbn [bind]. destruct p as [[b o]|]; [|rewrite Ra in Qn; destruct n; discriminate]. destruct Ra as (_ & Ob & Hb). cbn [fst snd] in *. subst o. rewrite (read_holds _ _ _ _ _ Hb Qn). cbn [bind]. eauto.
  - destruct (inv_get _ _ s v j _ I N) as (o & Q & R & ->). cbn [bind]. destruct o as [a|p|a]; [destruct R|destruct R|destruct R as (Sz & Dl & R)]. unfold arr_get. rewrite get_range. rewrite Sz. pose proof (nth_lt _ _ _ Qn) as Ln. destruct (Nat.ltb_spec n (length l)); [|lia]. cbn [negb].
    destruct (a_data a) as [[b o]|]; [|rewrite R in Qn; destruct n; discriminate]. destruct R as (_ & Ob & Hb). cbn [fst snd] in *. subst o. rewrite (read_holds _ _ _ _ _ Hb Qn). cbn [bind]. eauto.
  - destruct (inv_get _ _ s v j _ I N) as (o & Q & R & ->). cbn [bind]. destruct o as [a|p|a]; [destruct R|destruct R|destruct R as (Sz & Dl & R)]. unfold arr_get. rewrite get_range. rewrite Sz. destruct (Nat.ltb_spec n (length l)); [lia|]. cbn [negb bind]. eauto.
  - destruct (inv_get _ _ s v j _ I N) as (o & Q & R & ->). cbn [bind]. destruct (destroy_any k _ _ _ R) as (h & -> & F & G). cbn [bind]. unfold put_obj. rewrite aset_replace by (eapply nth_lt; eauto). cbn [bind]. eexists. split; [reflexivity|]. split.
    + eapply (inv_destroy _ _ frame lives); eauto.
    + intros keep Cv _ _. eapply kcovered_destroy; eauto.
Qed.

Lemma run_ok (P : cvalues -> eop -> Prop) : (forall v o, P v o -> copies_fit v o) -> forall prog s v rs v', cinv s v -> evrun src lim fadd fdiv of_int P v prog rs v' ->
  exists s', erun k fadd fdiv of_int s prog = OK (s', rs) /\ cinv s' v' /\ (forall keep, (forall v o, P v o -> overwrites_nothing v o /\ (keep [] = false \/ reads_full src o)) -> ccov keep s -> ccov keep s').
Proof.
  intros PC. induction prog as [|o prog IH]; intros s v rs v' I R.
  - inversion R; subst. exists s. split; [reflexivity|]. auto.
  - inversion R as [|v0 o0 r v1 t rs' v2 Po S1 R1]; subst. destruct (step_ok s v o r v1 I S1 (PC _ _ Po)) as (s1 & Q1 & I1 & C1). destruct (IH s1 v1 rs' v' I1 R1) as (s2 & Q2 & I2 & C2).
    exists s2. unfold erun in *. cbn [exec]. rewrite Q1. cbn [bind]. fold (exec step). rewrite Q2. cbn [bind]. split; [reflexivity|]. split; [exact I2|]. intros keep PT Cv. apply C2; [exact PT|]. destruct (PT _ _ Po) as (P1 & P2). apply C1; assumption.
Qed.
End Steps.
