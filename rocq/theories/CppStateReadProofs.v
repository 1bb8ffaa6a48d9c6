(** * Proofs: the readers of element states give objects that represent the file *)
From Verif Require Import CBase CBaseFacts BinModel D3BufModel D3BufSpec D3BufProofs D3Model D3Spec D3CurProofs D3OpenProofs D3SectProofs D3StateProofs D3ReadModel D3ReadSpec D3ReadProofs D3ElemModel D3ElemSpec D3ElemProofs D3LayerProofs D3MeanProofs D3ShellProofs D3ShellReadProofs PropD3Elem CppArrayModel CppArraySpec CppArrayProofs OwnModel OwnProofs ElemMemModel ElemMemSpec ElemMemProofs PropElemMem CppStateModel CppStateSpec CppStateProofs.
Open Scope Z_scope.

(** ** The loops *)
Lemma ips_adds c after d i : forall n j l hist adds o l' hist' adds' o', ips_loop c after d i n j l hist adds o = OK (l', hist', adds', o') -> length adds' = length adds.
Proof.
  induction n as [|n IH]; intros j l hist adds o l' hist' adds' o' E; cbn [ips_loop] in E; [injection E as <- <- <- <-; reflexivity|].
  destruct (surface_at c d hist i j o) as [[[ip hist1] o1]| |]; try discriminate. cbn [bind] in E.
  destruct (set_ip c i j ip l adds) as [[l1 adds1]| |] eqn:E2; try discriminate. cbn [bind] in E.
  match type of E with bind ?r _ = _ => destruct r as [[l2 o2]| |]; try discriminate end. cbn [bind] in E. apply IH in E. rewrite E.
  unfold set_ip in E2. destruct (j =? 0); [injection E2 as _ <-; reflexivity|]. destruct (j =? 1); [injection E2 as _ <-; reflexivity|]. destruct (j =? 2); [injection E2 as _ <-; reflexivity|].
  destruct (D3ElemModel.store adds _ [ip]) as [a| |] eqn:Es; try discriminate. cbn [bind] in E2. injection E2 as _ <-. exact (store_length _ _ _ _ Es).
Qed.
Lemma shell_loop_facts c f g is d : forall n i hist adds o l hist' adds' o', shell_loop c f g is d n i hist adds o = OK (l, hist', adds', o') ->
  length adds' = length adds /\ length l = n /\ Forall (fun x => sh_nhv x = nhv c /\ sh_nadd x = u8 (nip c - 3)) l.
Proof.
  induction n as [|n IH]; intros i hist adds o l hist' adds' o' E; cbn [shell_loop] in E; [injection E as <- <- <- <-; repeat split; constructor|].
  destruct (ips_loop _ _ _ _ _ _ _ _ _ _) as [[[[l1 h1] a1] o1]| |] eqn:E1; try discriminate. cbn [bind] in E.
  destruct (take_if f d o1 8) as [[fs o2]| |]; try discriminate. cbn [bind] in E. destruct (take_if g d o2 4) as [[ts o3]| |]; try discriminate. cbn [bind] in E.
  match type of E with bind ?r _ = _ => destruct r as [[l2 o4]| |]; try discriminate end. cbn [bind] in E.
  destruct (shell_loop _ _ _ _ _ _ _ _ _ _) as [[[[r h2] a2] o5]| |] eqn:E5; try discriminate. cbn [bind] in E. injection E as <- <- <- <-. apply IH in E5 as (L5 & Ln & F).
  apply ips_adds in E1. split; [congruence|]. split; [cbn [length]; congruence|]. constructor; [split; reflexivity|exact F].
Qed.
Lemma thick_loop_facts c w d : forall n i hist adds o l hist' adds' o', thick_loop c w d n i hist adds o = OK (l, hist', adds', o') ->
  length adds' = length adds /\ length l = n /\ Forall (fun x => ts_nhv x = nhv c /\ ts_nadd x = u8 (nip c - 3)) l.
Proof.
  induction n as [|n IH]; intros i hist adds o l hist' adds' o' E; cbn [thick_loop] in E; [injection E as <- <- <- <-; repeat split; constructor|].
  destruct (ips_loop _ _ _ _ _ _ _ _ _ _) as [[[[l1 h1] a1] o1]| |] eqn:E1; try discriminate. cbn [bind] in E.
  destruct (thick_loop _ _ _ _ _ _ _ _) as [[[[r h2] a2] o5]| |] eqn:E5; try discriminate. cbn [bind] in E. injection E as <- <- <- <-. apply IH in E5 as (L5 & Ln & F).
  apply ips_adds in E1. split; [congruence|]. split; [cbn [length]; congruence|]. constructor; [split; reflexivity|exact F].
Qed.
Lemma shells_facts pl s pl' l hs ads : read_shells_state pl s = OK (pl', Some (l, hs, ads)) ->
  length ads = Z.to_nat ((nip (shape_of pl) - 3) * pl_cd pl NEL4) /\ length l = Z.to_nat (pl_cd pl NEL4) /\ Forall (fun x => sh_nhv x = nhv (shape_of pl) /\ sh_nadd x = u8 (nip (shape_of pl) - 3)) l.
Proof.
  unfold read_shells_state. change (shape_of (clear pl)) with (shape_of pl). change (pl_cd (clear pl)) with (pl_cd pl). destruct (pl_cd pl NEL4 =? 0); [discriminate|]. destruct (state_at (clear pl) s); [|discriminate].
  destruct (state_words_at _ _ _ _) as [[pl1 [d|]]| |]; cbn [bind]; try discriminate. destruct (pl_istrn pl1); [|discriminate]. destruct (shell_loop _ _ _ _ _ _ _ _ _ _) as [[[[l1 h1] a1] o1]| |] eqn:E; try discriminate. cbn [bind].
  destruct (o1 =? _); [|discriminate]. intros [= <- <- <- <-]. apply shell_loop_facts in E as (La & Ll & F). rewrite La. split; [apply repeat_length|]. split; assumption.
Qed.
Lemma thick_facts pl s pl' l hs ads : read_thick_shells_state pl s = OK (pl', Some (l, hs, ads)) ->
  length ads = Z.to_nat ((nip (shape_of pl) - 3) * pl_cd pl NELT) /\ length l = Z.to_nat (pl_cd pl NELT) /\ Forall (fun x => ts_nhv x = nhv (shape_of pl) /\ ts_nadd x = u8 (nip (shape_of pl) - 3)) l.
Proof.
  unfold read_thick_shells_state. change (shape_of (clear pl)) with (shape_of pl). change (pl_cd (clear pl)) with (pl_cd pl). destruct (pl_cd pl NELT =? 0); [discriminate|]. destruct (state_at (clear pl) s); [|discriminate].
  destruct (istrn_is (clear pl) 1); try discriminate. cbn [bind].
  destruct (state_words_at _ _ _ _) as [[pl1 [d|]]| |]; cbn [bind]; try discriminate. destruct (thick_loop _ _ _ _ _ _ _ _) as [[[[l1 h1] a1] o1]| |] eqn:E; try discriminate. cbn [bind].
  destruct (o1 =? _); [|discriminate]. intros [= <- <- <- <-]. apply thick_loop_facts in E as (La & Ll & F). rewrite La. split; [apply repeat_length|]. split; assumption.
Qed.

(** ** The object *)
Section Kind.
Context {A : Type} (k : kind A).
Lemma placed_rep c num h h' e (views : list (list surface_view)) :
  placed c num h h' e -> 0 < num -> 3 <= nip c -> 0 <= nhv c ->
  length (el_structs e) = Z.to_nat num -> (forall x, In x (el_structs e) -> k_nhv k x = nhv c /\ k_nadd k x = nip c - 3) ->
  (exists x, nth_error (el_structs e) 0 = Some x /\ first_ok c (k_layers k x)) -> length (el_adds e) = Z.to_nat ((nip c - 3) * num) ->
  map (fun x => see_layers (el_hists e) (el_adds e) (k_nhv k x) (k_nadd k x) (k_layers k x)) (el_structs e) = map Some views ->
  Forall (Forall (fun v => length (v_sigma v) = 6%nat)) views -> (nhv c = 0 -> el_hists e = []) ->
  exists ext, h' = h ++ ext /\ erep k (h ++ ext) (fresh_arr e) (map (map v_history) views) /\
    (forall b, In b (eblocks k (fresh_arr e)) -> (length h <= b)%nat) /\
    (forall b blk, nth_error ext b = Some (Some blk) -> blk <> [] \/ (nhv c <> 0 /\ nip c <> 3) -> In (length h + b)%nat (eblocks k (fresh_arr e))).
Proof.
  intros (Ph & Pl) Hn P3 H0 Ls Lx (x0 & Q0 & F0) La See Sg Hh. destruct (Z.ltb_spec (nip c) 3); [lia|]. destruct Pl as (-> & Pa & Pb). exists [Some (map number (el_hists e)); Some (room ((nip c - 3) * num)); Some (room num); None]. split; [reflexivity|].
  assert (Lv : length views = length (el_structs e)) by (apply (f_equal (@length _)) in See; rewrite !map_length in See; symmetry; exact See).
  set (h' := h ++ [Some (map number (el_hists e)); Some (room ((nip c - 3) * num)); Some (room num); None]).
  assert (D : data_ok k h' e (map (map v_history) views) (nhv c) (nip c - 3)).
  { split; [exact H0|]. split; [lia|]. split; [|split; [|split; [|split; [|split]]]].
    - exists (room num). rewrite Pb. split; [split; [reflexivity|]; unfold h'; cbn [fst]; rewrite nth_error_app2 by lia; replace (length h + 2 - length h)%nat with 2%nat by lia; reflexivity|]. rewrite map_length, Lv, Ls. apply repeat_length.
    - intros _. rewrite Ph. split; [reflexivity|]. unfold h'. cbn [fst]. rewrite nth_error_app2 by lia. replace (length h + 0 - length h)%nat with 0%nat by lia. reflexivity.
    - intros _. exists (length h + 1, 0)%nat, (room ((nip c - 3) * num)). split; [exact Pa|]. split; [split; [reflexivity|]; unfold h'; cbn [fst]; rewrite nth_error_app2 by lia; replace (length h + 1 - length h)%nat with 1%nat by lia; reflexivity|]. rewrite La. apply repeat_length.
    - intros i x lv Qx Ql. rewrite nth_error_map in Ql. destruct (nth_error views i) as [v|] eqn:Qv; [|discriminate]. injection Ql as <-. destruct (Lx x (nth_error_In _ _ Qx)) as (N1 & M1). split; [exact N1|]. split; [exact M1|]. exists v.
      split; [|split; [reflexivity|]]; [|rewrite Forall_forall in Sg; apply Sg; eapply nth_error_In; eauto]. apply (f_equal (fun l => nth_error l i)) in See. rewrite !nth_error_map, Qx, Qv in See. cbn [option_map] in See. injection See as See. rewrite N1, M1 in See. exact See.
    - destruct F0 as (Fm & _ & Fa). destruct (Fm ltac:(lia)) as (s & Qs & Hs). exists x0, s. split; [exact Q0|]. split; [exact Qs|]. split; [exact Hs|]. rewrite Fa. destruct (Z.leb_spec (nip c) 3), (Z.eqb_spec (nip c - 3) 0); try lia; reflexivity.
    - destruct F0 as (Fm & _ & Fa). destruct (Fm ltac:(lia)) as (s & Qs & Hs). unfold owned. destruct (el_structs e) as [|y l]; [discriminate|]. injection Q0 as ->. rewrite Qs. unfold surface_hist, struct_adds. rewrite Hs, Fa, Ph, Pa, Pb.
      destruct (nhv c =? 0), (nip c <=? 3); cbn [option_map at_off ptr_blocks flat_map app fst]; repeat constructor; cbn [In]; lia. }
  assert (R : erep k h' (fresh_arr e) (map (map v_history) views)).
  { unfold erep, fresh_arr. cbn [ea_data ea_size ea_del]. rewrite map_length, Lv. split; [intros E0; apply map_eq_nil in E0; rewrite E0 in Lv; cbn in Lv; lia|]. repeat (split; [reflexivity|]). exists (nhv c), (nip c - 3). exact D. }
  split; [exact R|]. split.
  - intros b I. unfold eblocks, fresh_arr in I. cbn [ea_data] in I. destruct (block_cases k _ _ _ _ _ _ D I) as [->|[(_ & ->)|(_ & p & Qp & ->)]]; [rewrite Pb|rewrite Ph|rewrite Pa in Qp; injection Qp as <-]; cbn [fst]; lia.
  - intros b blk Q T. unfold eblocks, fresh_arr. cbn [ea_data]. destruct (in_owned k _ _ _ _ _ D) as (I1 & I2 & I3). destruct b as [|[|[|[|b]]]]; try discriminate.
    + assert (Hn0 : nhv c <> 0) by (destruct T as [T|(T & _)]; [|exact T]; intros Z0; injection Q as <-; apply T; rewrite (Hh Z0); reflexivity). specialize (I2 Hn0). rewrite Ph in I2. exact I2.
    + assert (Hp : nip c - 3 <> 0) by (destruct T as [T|(_ & T)]; [|lia]; intros Z0; injection Q as <-; apply T; rewrite Z0; reflexivity). exact (I3 Hp _ Pa).
    + rewrite Pb in I1. exact I1.
    + destruct b; discriminate.
Qed.
(** An element of the value that was read tells the shape. *)
Lemma rep_shape h e c N M x : data_ok k h e c N M -> length (el_structs e) = length c -> nth_error c 0 = Some x -> length x <> 3%nat -> hd [] x <> [] -> N <> 0 /\ M <> 0.
Proof.
  intros D L Q L3 H0. destruct (nth_error (el_structs e) 0) as [s|] eqn:Qs; [|apply nth_error_None in Qs; apply nth_lt in Q; lia]. pose proof D as (N0 & M0 & _ & _ & _ & El & _). specialize (El 0%nat s x Qs Q).
  pose proof (element_layers k _ _ _ _ _ El M0) as Lx. split; [|intros ->; apply L3; rewrite Lx; reflexivity]. intros ->. destruct x as [|hv x]; [cbn in Lx; lia|]. destruct (layer_ok k _ _ _ _ _ _ _ 0 hv D El eq_refl) as (_ & _ & Lh & _). apply H0. cbn [hd]. destruct hv; [reflexivity|discriminate].
Qed.
End Kind.

Lemma given_back_ext h h' : given_back h h' -> exists ext, h' = h ++ ext /\ forall b blk, nth_error ext b <> Some (Some blk).
Proof.
  intros (K & G). exists (skipn (length h) h'). assert (E : h' = h ++ skipn (length h) h').
  { rewrite <- (firstn_skipn (length h) h') at 1. f_equal. revert h' K G. induction h as [|a h IH]; intros h' K G; [reflexivity|]. destruct h' as [|a' h']; [specialize (K 0%nat ltac:(cbn; lia)); discriminate|].
    pose proof (K 0%nat ltac:(cbn; lia)) as K0. injection K0 as ->. cbn [length firstn]. f_equal. apply IH.
    - intros b L. apply (K (S b)). cbn [length]. lia.
    - intros b c L. apply (G (S b) c). cbn [length]. lia. }
  split; [exact E|]. intros b blk Q. apply (G (length h + b)%nat blk); [lia|]. rewrite E, nth_error_app2 by lia. replace (length h + b - length h)%nat with b by lia. exact Q.
Qed.
Lemma surface_sigma b p : length (v_sigma (surface_spec b p)) = 6%nat.
Proof. cbn [surface_spec v_sigma]. unfold group. destruct (_ =? 0); [reflexivity|]. apply nums_length. Qed.
Lemma each_sigma b n f : Forall (fun v => length (v_sigma v) = 6%nat) (each n (fun j => surface_spec b (f j))).
Proof. unfold each. apply Forall_map, Forall_forall. intros. apply surface_sigma. Qed.
Lemma each_map {A B} (g : A -> B) n f : map g (each n f) = each n (fun i => g (f i)).
Proof. unfold each. apply map_map. Qed.

Lemma shape_small b : supported b -> 0 <= nhv (the_shape b (ips_of b)) /\ nip (the_shape b (ips_of b)) = ips_of b.
Proof. intros Su. split; [|reflexivity]. cbn [nhv the_shape]. apply (nonneg b Su); discriminate. Qed.
Lemma ips_small b pl titles states : opened b titles states pl -> ips_of b <= 255.
Proof.
  intros O. pose proof (shape_opened _ _ _ _ O) as E. apply (f_equal nip) in E. cbn [nip the_shape shape_of] in E. rewrite <- E. pose proof (Z.mod_pos_bound (pl_cd pl MAXINT) 256 ltac:(lia)). unfold u8. lia.
Qed.

Lemma seen_part {A B C} (f : A -> option B) (g : A -> option C) (w : B -> C) : (forall x y, f x = Some y -> g x = Some (w y)) -> forall l m, map f l = map Some m -> map g l = map Some (map w m).
Proof.
  intros H. induction l as [|x l IH]; intros [|y m] E; try discriminate; [reflexivity|]. cbn [map] in *. injection E as E1 E2. rewrite (H _ _ E1), (IH _ E2). reflexivity.
Qed.
Lemma shell_part hs ads x v : see_shell hs ads x = Some v -> see_layers hs ads (sh_nhv x) (sh_nadd x) (sh_layers x) = Some (w_ips v).
Proof. unfold see_shell. destruct (see_layers _ _ _ _ _); [|discriminate]. destruct (l_strains _) as [[i o]|]; [|discriminate]. intros [= <-]. reflexivity. Qed.
Lemma thick_part hs ads x v : see_thick hs ads x = Some v -> see_layers hs ads (ts_nhv x) (ts_nadd x) (ts_layers x) = Some (x_ips v).
Proof. unfold see_thick. destruct (see_layers _ _ _ _ _); [|discriminate]. destruct (l_strains _) as [[i o]|]; [|discriminate]. intros [= <-]. reflexivity. Qed.
Lemma tidy_shape {A} (k : kind A) h e c (N P : Z) num : erep k h (fresh_arr e) c -> (exists x s, nth_error (el_structs e) 0 = Some x /\ k_nhv k x = N /\ k_nadd k x = P - 3 /\ nth_error c 0 = Some s) -> 0 < num ->
  (forall x, In x c -> length x <> 3%nat /\ hd [] x <> []) -> N <> 0 /\ P <> 3.
Proof.
  intros R (x & s & Qx & Nx & Mx & Qs) _ T. destruct (T s (nth_error_In _ _ Qs)) as (T1 & T2). unfold erep, fresh_arr in R. cbn [ea_data ea_size ea_del] in R. destruct R as (_ & _ & _ & L & N' & M' & D).
  destruct (rep_shape k _ _ _ _ _ _ D L Qs T1 T2) as (A1 & A2). destruct D as (_ & _ & _ & _ & _ & El & _). destruct (El _ _ _ Qx Qs) as (E1 & E2 & _). split; [congruence|]. lia.
Qed.
Lemma each_first {A} n (f : Z -> A) : 0 < n -> nth_error (each n f) 0 = Some (f 0).
Proof. intros H. rewrite each_nth by lia. reflexivity. Qed.

Lemma shells_reads : reads_ok shells shell_source.
Proof.
  split; [|split].
  - intros h pl st c (b & titles & states & p & is & O & Hs & Hi & Hn & Is & P3 & Hw & ->).
    destruct (C46_shells b titles states pl st p is O Hs Hi Hn Is P3 Hw) as (l & hs & ads & (pl' & Q & Er & _) & See).
    destruct (shells_facts _ _ _ _ _ _ Q) as (La & Ll & Fl). pose proof (shells_mem h pl st (nel4_nn _ _ _ _ O)) as M. rewrite Q in M. destruct M as (h' & e & E & <- & <- & <- & _ & Pl & F0 & Lh).
    pose proof (v_su _ _ _ _ (opened_view _ _ _ _ O)) as Su. destruct (shape_small b Su) as (N0 & Np). pose proof (ips_small _ _ _ _ O) as P255.
    rewrite (shape_opened _ _ _ _ O), (cd_opened _ _ _ _ O NEL4 eq_refl) in *. rewrite Np in *. replace (u8 (ips_of b - 3)) with (ips_of b - 3) in Fl by (symmetry; apply Z.mod_small; lia). rewrite Forall_forall in Fl.
    apply (seen_part _ _ w_ips (shell_part _ _)) in See.
    destruct (placed_rep shells _ _ _ _ _ _ Pl Hn P3 N0 Ll Fl F0 La See) as (ext & -> & R & F & C); [| |].
    { rewrite each_map. unfold each. apply Forall_map, Forall_forall. intros. apply (each_sigma b (ips_of b) (fun j => _ + j * ip_words b)). }
    { intros Z0. rewrite Z0 in Lh. cbn [Z.mul Z.to_nat] in Lh. destruct (el_hists e); [reflexivity|discriminate]. }
    exists ext, pl', e. split; [exact E|]. split; [exact Er|]. rewrite !each_map in R. split; [exact R|]. split; [exact F|].
    intros b0 blk Qb T. apply (C b0 blk Qb). destruct T as [T|T]; [left; exact T|right]. destruct F0 as (x0 & Q0 & _). apply (tidy_shape shells _ e _ (nhv (the_shape b (ips_of b))) (ips_of b) (cval b NEL4) R); [|exact Hn|exact T].
    destruct (Fl x0 (nth_error_In _ _ Q0)) as (E1 & E2). exists x0. eexists. split; [exact Q0|]. split; [exact E1|]. split; [exact E2|]. apply each_first. exact Hn.
  - intros h pl st (b & titles & states & O & Hn). destruct (C46_none b titles states pl st O Hn) as (pl' & Q & Er & _). exists pl'. split; [|exact Er]. unfold k_mem, shells, read_shells_mem. unfold read_shells_state in Q.
    change (pl_cd (clear pl)) with (pl_cd pl) in *. rewrite (cd_opened _ _ _ _ O NEL4 eq_refl), Hn in *. cbn [Z.eqb] in *. injection Q as <-. reflexivity.
  - intros h pl st (b & titles & states & O & Hn & H).
    assert (G : exists er, er <> P_words /\ reports b titles states (read_shells_state pl st) er None).
    { destruct H as [L|(p & is & Hs & Hi & Hw)]; [exists P_state; split; [discriminate|apply C46_outside; assumption]|exists P_sanity; split; [discriminate|eapply C46_mismatch; eassumption]]. }
    destruct G as (er & Ner & (pl' & Q & Er & _)). pose proof (shells_mem h pl st (nel4_nn _ _ _ _ O)) as M. rewrite Q in M. destruct M as (h' & E & [(G & _)|(G1 & _)]); [|congruence].
    destruct (given_back_ext _ _ G) as (ext & -> & Ne). exists ext, pl', er. auto.
Qed.
Lemma thick_reads : reads_ok thick_shells thick_source.
Proof.
  split; [|split].
  - intros h pl st c (b & titles & states & p & is & O & Hs & Hi & Hn & P3 & Hw & ->).
    destruct (C58_thick_shells b titles states pl st p is O Hs Hi Hn P3 Hw) as (l & hs & ads & (pl' & Q & Er & _) & See). assert (P3' : 3 <= ips_of b) by lia.
    destruct (thick_facts _ _ _ _ _ _ Q) as (La & Ll & Fl). pose proof (thick_mem h pl st (nelt_nn _ _ _ _ O)) as M. rewrite Q in M. destruct M as (h' & e & E & <- & <- & <- & _ & Pl & F0 & Lh).
    pose proof (v_su _ _ _ _ (opened_view _ _ _ _ O)) as Su. destruct (shape_small b Su) as (N0 & Np). pose proof (ips_small _ _ _ _ O) as P255.
    rewrite (shape_opened _ _ _ _ O), (cd_opened _ _ _ _ O NELT eq_refl) in *. rewrite Np in *. replace (u8 (ips_of b - 3)) with (ips_of b - 3) in Fl by (symmetry; apply Z.mod_small; lia). rewrite Forall_forall in Fl.
    apply (seen_part _ _ x_ips (thick_part _ _)) in See.
    destruct (placed_rep thick_shells _ _ _ _ _ _ Pl Hn P3' N0 Ll Fl F0 La See) as (ext & -> & R & F & C); [| |].
    { rewrite each_map. unfold each. apply Forall_map, Forall_forall. intros. apply (each_sigma b (ips_of b) (fun j => _ + j * ip_words b + (if j <? 3 then 0 else 12 * stored1 is))). }
    { intros Z0. rewrite Z0, Z.mul_0_r in Lh. cbn [Z.to_nat] in Lh. destruct (el_hists e); [reflexivity|discriminate]. }
    exists ext, pl', e. split; [exact E|]. split; [exact Er|]. rewrite !each_map in R. split; [exact R|]. split; [exact F|].
    intros b0 blk Qb T. apply (C b0 blk Qb). destruct T as [T|T]; [left; exact T|right]. destruct F0 as (x0 & Q0 & _). apply (tidy_shape thick_shells _ e _ (nhv (the_shape b (ips_of b))) (ips_of b) (cval b NELT) R); [|exact Hn|exact T].
    destruct (Fl x0 (nth_error_In _ _ Q0)) as (E1 & E2). exists x0. eexists. split; [exact Q0|]. split; [exact E1|]. split; [exact E2|]. apply each_first. exact Hn.
  - intros h pl st (b & titles & states & O & Hn). destruct (C58_none b titles states pl st O Hn) as (pl' & Q & Er & _). exists pl'. split; [|exact Er]. unfold k_mem, thick_shells, read_thick_shells_mem. unfold read_thick_shells_state in Q.
    change (pl_cd (clear pl)) with (pl_cd pl) in *. rewrite (cd_opened _ _ _ _ O NELT eq_refl), Hn in *. cbn [Z.eqb] in *. injection Q as <-. reflexivity.
  - intros h pl st (b & titles & states & O & Hn & H).
    assert (G : exists er, reports b titles states (read_thick_shells_state pl st) er None).
    { destruct H as [L|(p & is & Hs & Hi & P3 & Hw)]; [exists P_state; apply C58_outside; assumption|exists P_sanity; eapply C58_mismatch; eassumption]. }
    destruct G as (er & (pl' & Q & Er & _)). pose proof (thick_mem h pl st (nelt_nn _ _ _ _ O)) as M. rewrite Q in M. destruct M as (h' & E & G).
    destruct (given_back_ext _ _ G) as (ext & -> & Ne). exists ext, pl', er. auto.
Qed.
Lemma shells_index : forall i, 0 <= i < 2 ^ 64 -> k_index shells i = i.
Proof. intros i H. apply Z.mod_small. exact H. Qed.
Lemma thick_index : forall i, 0 <= i < 256 -> k_index thick_shells i = i.
Proof. intros i H. apply Z.mod_small. exact H. Qed.
