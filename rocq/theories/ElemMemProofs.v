(** * Proofs about the memory of element states *)
From Verif Require Import CBase CBaseFacts BinModel D3BufModel D3Model D3ReadModel D3ElemModel CppArrayModel CppArraySpec CppArrayProofs OwnModel OwnProofs ElemMemModel ElemMemSpec.
Open Scope Z_scope.

(** ** The first struct *)
Lemma surface_at_hist c d hist i j o ip hist' o' : surface_at c d hist i j o = OK (ip, hist', o') ->
  sf_hist ip = (if nhv c =? 0 then None else Some (i * nip c * nhv c + j * nhv c)) /\ length hist' = length hist.
Proof.
  unfold surface_at. destruct (take_if (stress c) d o 6) as [[sg o1]| |]; try discriminate. cbn [bind]. destruct (one_if (plastic c) d o1) as [[ps o2]| |]; try discriminate. cbn [bind].
  destruct (nhv c =? 0); [intros [= <- <- <-]; split; reflexivity|]. destruct (take d o2 (nhv c)) as [v| |]; try discriminate. cbn [bind].
  unfold D3ElemModel.store. destruct ((0 <=? _) && _) eqn:E; [|discriminate]. cbn [bind]. intros [= <- <- <-]. split; [reflexivity|]. apply andb_prop in E as (E1 & E2). apply Z.leb_le in E1, E2.
  rewrite !app_length, map_length, firstn_length, skipn_length. lia.
Qed.
Lemma set_ip_facts c i j ip l adds l' adds' : set_ip c i j ip l adds = OK (l', adds') -> 0 <= j ->
  l_mid l' = (if j =? 0 then Some ip else l_mid l) /\ l_add l' = (if j <? 3 then l_add l else Some (match l_add l with Some a => a | None => i * (nip c - 3) end)).
Proof.
  intros E J. unfold set_ip in E. destruct (Z.eqb_spec j 0), (Z.eqb_spec j 1), (Z.eqb_spec j 2); try lia; try (injection E as <- <-; destruct (Z.ltb_spec j 3); try lia; split; reflexivity).
  destruct (D3ElemModel.store adds _ [ip]) as [a| |]; try discriminate. cbn [bind] in E. injection E as <- <-. destruct (Z.ltb_spec j 3); try lia. split; reflexivity.
Qed.
Lemma ips_facts c after d i : forall n j l hist adds o l' hist' adds' o', ips_loop c after d i n j l hist adds o = OK (l', hist', adds', o') -> 0 <= j ->
  length hist' = length hist /\
  (0 < j -> l_mid l' = l_mid l) /\
  (j = 0 -> (0 < n)%nat -> exists mid, l_mid l' = Some mid /\ sf_hist mid = (if nhv c =? 0 then None else Some (i * nip c * nhv c))) /\
  (n = O -> l_mid l' = l_mid l) /\
  l_add l' = (if j + Z.of_nat n <=? 3 then l_add l else if Z.of_nat n =? 0 then l_add l else Some (match l_add l with Some a => a | None => i * (nip c - 3) end)).
Proof.
  induction n as [|n IH]; intros j l hist adds o l' hist' adds' o' E J; cbn [ips_loop] in E.
  - injection E as <- <- <- <-. repeat split; try lia; auto. destruct (_ <=? 3); reflexivity.
  - destruct (surface_at c d hist i j o) as [[[ip hist1] o1]| |] eqn:E1; try discriminate. cbn [bind] in E. apply surface_at_hist in E1 as (H1 & Lh).
    destruct (set_ip c i j ip l adds) as [[l1 adds1]| |] eqn:E2; try discriminate. cbn [bind] in E. apply set_ip_facts in E2 as (M1 & A1); [|exact J].
    match type of E with bind ?r _ = _ => destruct r as [[l2 o2]| |] eqn:E3; try discriminate end. cbn [bind] in E.
    assert (M2 : l_mid l2 = l_mid l1 /\ l_add l2 = l_add l1).
    { destruct after as [w|]; [|injection E3 as <- <-; split; reflexivity]. destruct (j =? 2); [|injection E3 as <- <-; split; reflexivity].
      destruct (strains_at w d o1) as [[[e1 e2] o3]| |]; try discriminate. cbn [bind] in E3. injection E3 as <- <-. split; reflexivity. }
    destruct M2 as (M2 & A2). apply IH in E as (Lh' & P & _ & _ & A); [|lia]. rewrite Lh', Lh. split; [reflexivity|]. rewrite P, M2, M1 by lia. split; [|split; [|split]].
    + intros J'. destruct (Z.eqb_spec j 0); [lia|reflexivity].
    + intros -> _. rewrite Z.eqb_refl. exists ip. split; [reflexivity|]. rewrite H1. destruct (nhv c =? 0); [reflexivity|]. f_equal. lia.
    + discriminate.
    + rewrite A, A2, A1. replace (j + Z.of_nat (S n)) with (j + 1 + Z.of_nat n) by lia. destruct (Z.leb_spec (j + 1 + Z.of_nat n) 3).
      * destruct (Z.ltb_spec j 3); [reflexivity|lia].
      * destruct (Z.eqb_spec (Z.of_nat (S n)) 0); [lia|]. destruct (Z.ltb_spec j 3); [|destruct (Z.of_nat n =? 0); reflexivity]. destruct (Z.eqb_spec (Z.of_nat n) 0); [lia|reflexivity].
Qed.
(** The pointers of a first struct with [nip] integration points. *)
Definition first_ok (c : shape) (l : layers) : Prop :=
  (0 < nip c -> exists mid, l_mid l = Some mid /\ sf_hist mid = (if nhv c =? 0 then None else Some 0)) /\
  (nip c <= 0 -> l_mid l = None) /\ l_add l = (if nip c <=? 3 then None else Some 0).
Lemma first_of_ips c after d n hist adds o l' hist' adds' o' : n = Z.to_nat (nip c) -> ips_loop c after d 0 n 0 no_layers hist adds o = OK (l', hist', adds', o') ->
  first_ok c l' /\ length hist' = length hist.
Proof.
  intros -> E. apply ips_facts in E as (L & _ & M & M0 & A); [|lia]. split; [|exact L]. split; [|split].
  - intros P. destruct (M eq_refl ltac:(lia)) as (mid & Q & H). exists mid. split; [exact Q|]. rewrite H. reflexivity.
  - intros P. apply M0. lia.
  - rewrite A. cbn [l_add no_layers]. rewrite Z.add_0_l, Z.mul_0_l. destruct (Z.leb_spec (nip c) 3), (Z.leb_spec (Z.of_nat (Z.to_nat (nip c))) 3); try lia; [reflexivity|]. destruct (Z.eqb_spec (Z.of_nat (Z.to_nat (nip c))) 0); [lia|reflexivity].
Qed.
Lemma first_strains c l s : first_ok c l -> first_ok c (with_strains l s).
Proof. intros F. exact F. Qed.
Lemma shell_loop_hist c f g is d : forall n i hist adds o l hist' adds' o', shell_loop c f g is d n i hist adds o = OK (l, hist', adds', o') -> length hist' = length hist /\ length l = n /\
  (i = 0 -> (0 < n)%nat -> exists x, nth_error l 0 = Some x /\ first_ok c (sh_layers x)).
Proof.
  induction n as [|n IH]; intros i hist adds o l hist' adds' o' E; cbn [shell_loop] in E; [injection E as <- <- <- <-; repeat split; lia|].
  destruct (ips_loop _ _ _ _ _ _ _ _ _ _) as [[[[l1 h1] a1] o1]| |] eqn:E1; try discriminate. cbn [bind] in E.
  destruct (take_if f d o1 8) as [[fs o2]| |]; try discriminate. cbn [bind] in E. destruct (take_if g d o2 4) as [[ts o3]| |]; try discriminate. cbn [bind] in E.
  match type of E with bind ?r _ = _ => destruct r as [[l2 o4]| |] eqn:E4; try discriminate end. cbn [bind] in E.
  destruct (shell_loop _ _ _ _ _ _ _ _ _ _) as [[[[r h2] a2] o5]| |] eqn:E5; try discriminate. cbn [bind] in E. injection E as <- <- <- <-. apply IH in E5 as (L5 & Ln & _).
  assert (Lh : length h1 = length hist) by (apply ips_facts in E1 as (L & _); [exact L|lia]). split; [congruence|]. split; [cbn [length]; congruence|].
  intros -> _. eexists. split; [reflexivity|]. cbn [sh_layers]. apply first_of_ips in E1 as (F & _); [|reflexivity].
  destruct (is =? 0); [injection E4 as <- <-; apply first_strains; exact F|]. destruct (is =? 1); [|injection E4 as <- <-; exact F].
  destruct (strains_at true d o3) as [[[e1 e2] o6]| |]; try discriminate. cbn [bind] in E4. injection E4 as <- <-. apply first_strains. exact F.
Qed.
Lemma thick_loop_hist c w d : forall n i hist adds o l hist' adds' o', thick_loop c w d n i hist adds o = OK (l, hist', adds', o') -> length hist' = length hist /\ length l = n /\
  (i = 0 -> (0 < n)%nat -> exists x, nth_error l 0 = Some x /\ first_ok c (ts_layers x)).
Proof.
  induction n as [|n IH]; intros i hist adds o l hist' adds' o' E; cbn [thick_loop] in E; [injection E as <- <- <- <-; repeat split; lia|].
  destruct (ips_loop _ _ _ _ _ _ _ _ _ _) as [[[[l1 h1] a1] o1]| |] eqn:E1; try discriminate. cbn [bind] in E.
  destruct (thick_loop _ _ _ _ _ _ _ _) as [[[[r h2] a2] o5]| |] eqn:E5; try discriminate. cbn [bind] in E. injection E as <- <- <- <-. apply IH in E5 as (L5 & Ln & _).
  assert (Lh : length h1 = length hist) by (apply ips_facts in E1 as (L & _); [exact L|lia]). split; [congruence|]. split; [cbn [length]; congruence|].
  intros -> _. eexists. split; [reflexivity|]. cbn [ts_layers]. apply first_of_ips in E1 as (F & _); [exact F|reflexivity].
Qed.

(** ** New blocks *)
Definition shift (n : nat) (p : option ptr) : option ptr := option_map (fun p => ((n + fst p)%nat, snd p)) p.
Lemma aget_app {A} (h l : list A) k : aget (h ++ l) (length h + k) = aget l k.
Proof. unfold aget. rewrite nth_error_app2 by lia. replace (length h + k - length h)%nat with k by lia. reflexivity. Qed.
Lemma aset_app {A} (h : list A) : forall l k x, aset (h ++ l) (length h + k) x = (do l' <- aset l k x; OK (h ++ l')).
Proof.
  induction h as [|a h IH]; intros l k x; cbn [app length Nat.add]; [destruct (aset l k x); reflexivity|]. cbn [aset]. rewrite IH. destruct (aset l k x); reflexivity.
Qed.
Lemma h_free_app h l k o : h_free (h ++ l) ((length h + k)%nat, o) = (do l' <- h_free l (k, o); OK (h ++ l')).
Proof. unfold h_free. cbn [fst snd]. rewrite aget_app. destruct (aget l k) as [[x|]| |]; try reflexivity. cbn [bind]. destruct (Nat.eqb o 0); [|reflexivity]. apply aset_app. Qed.
Lemma free_all_shift ps : forall h l, h_free_all (h ++ l) (map (shift (length h)) ps) = (do l' <- h_free_all l ps; OK (h ++ l')).
Proof.
  induction ps as [|[[b o]|] ps IH]; intros h l; cbn [map h_free_all shift option_map h_free_opt fst snd bind]; [reflexivity| |apply IH].
  rewrite h_free_app. destruct (h_free l (b, o)) as [l'| |]; try reflexivity. cbn [bind]. apply IH.
Qed.
Lemma fill_app h l k o hs : fill (h ++ l) ((length h + k)%nat, o) hs = (do l' <- fill l (k, o) hs; OK (h ++ l')).
Proof. unfold fill. cbn [fst]. apply aset_app. Qed.

Lemma given_back_app h l : Forall (fun b => b = None) l -> given_back h (h ++ l).
Proof.
  intros F. split; [intros b L; apply nth_error_app1; exact L|]. intros b c L Q. rewrite nth_error_app2 in Q by exact L. apply nth_error_In in Q. rewrite Forall_forall in F. apply F in Q. discriminate.
Qed.
Lemma given_back_refl h : given_back h h.
Proof. split; [reflexivity|]. intros b c L Q. apply nth_error_None in L. congruence. Qed.
Lemma lost_app h l c : In (Some c) l -> lost (Z.of_nat (length c)) h (h ++ l).
Proof. intros I. apply In_nth_error in I as (k & Q). exists (length h + k)%nat, c. split; [lia|]. split; [|reflexivity]. rewrite nth_error_app2 by lia. replace (length h + k - length h)%nat with k by lia. exact Q. Qed.

Definition placed {A} (c : shape) (num : Z) (h h' : heap) (e : elems A) : Prop :=
  el_hist e = (length h + 0, 0)%nat /\
  if nip c <? 3
  then h' = h ++ [Some (map number (el_hists e)); Some (room num); None] /\ el_add e = None /\ el_block e = (length h + 1, 0)%nat
  else h' = h ++ [Some (map number (el_hists e)); Some (room ((nip c - 3) * num)); Some (room num); None] /\ el_add e = Some (length h + 1, 0)%nat /\ el_block e = (length h + 2, 0)%nat.

Lemma malloc_app h l x : h_malloc (h ++ l) x = (h ++ l ++ [Some x], (length h + length l, 0))%nat.
Proof. unfold h_malloc. rewrite <- app_assoc, app_length. reflexivity. Qed.
Lemma malloc_nil h x : h_malloc h x = (h ++ [Some x], (length h + 0, 0))%nat.
Proof. unfold h_malloc. rewrite Nat.add_0_r. reflexivity. Qed.

(** The words of the elements could not be read. *)
Lemma words_fail pl num nv pos pl' : state_words_at pl num nv pos = OK (pl', None) -> pl_err pl' = Some P_words.
Proof.
  unfold state_words_at, read_at. destruct (read_bytes_at pl _ _) as [[pl1 [d|]]| |] eqn:E; try discriminate. cbn [bind]. intros [= <-].
  unfold read_bytes_at in E. destruct (read_words_at _ _ _) as [[[b1 p1] d1]| |]; try discriminate. cbn [bind] in E. destruct (pointer_close b1 p1); try discriminate. cbn [bind] in E.
  destruct (d_err b1); [injection E as <-; reflexivity|discriminate].
Qed.

Lemma shells_mem h pl s : 0 <= pl_cd pl NEL4 ->
  match read_shells_state pl s with
  | OK (pl', Some (l, hs, ads)) => exists h' e, read_shells_mem h pl s = OK (h', pl', Some e) /\ el_structs e = l /\ el_hists e = hs /\ el_adds e = ads /\
      0 < pl_cd pl NEL4 /\ placed (shape_of pl) (pl_cd pl NEL4) h h' e /\ (exists x, nth_error l 0 = Some x /\ first_ok (shape_of pl) (sh_layers x)) /\ length hs = Z.to_nat (nhv (shape_of pl) * nip (shape_of pl) * pl_cd pl NEL4)
  | OK (pl', None) => exists h', read_shells_mem h pl s = OK (h', pl', None) /\
      (given_back h h' /\ (pl_err pl' = Some P_words -> d_ws (pl_buf pl') <> 4) \/ pl_err pl' = Some P_words /\ d_ws (pl_buf pl') = 4 /\ lost (Z.of_nat (Z.to_nat (nhv (shape_of pl) * nip (shape_of pl) * pl_cd pl NEL4))) h h')
  | UB => read_shells_mem h pl s = UB
  | OOF => read_shells_mem h pl s = OOF
  end.
Proof.
  intros Hn. unfold read_shells_state, read_shells_mem. change (shape_of (clear pl)) with (shape_of pl). change (pl_cd (clear pl)) with (pl_cd pl). set (num := pl_cd pl NEL4) in *. set (c := shape_of pl).
  destruct (Z.eqb_spec num 0) as [Z0|Z0]; [exists h; split; [reflexivity|left; split; [apply given_back_refl|discriminate]]|].
  destruct (state_at (clear pl) s) as [p|] eqn:Es; [|exists h; split; [reflexivity|left; split; [apply given_back_refl|discriminate]]].
  set (H := room (nhv c * nip c * num)). set (A := room ((nip c - 3) * num)). set (E := room num). set (D := room (num * pl_cd pl NV2D)).
  unfold malloc_adds. rewrite malloc_nil. fold A.
  destruct (nip c <? 3) eqn:Few; [rewrite !malloc_app|rewrite !malloc_app]; cbn [app length].
  - destruct (state_words_at (clear pl) num (pl_cd pl NV2D) (p + pl_ptr (clear pl) K_STATE_SHELL)) as [[pl1 d]| |] eqn:Ew; try reflexivity. cbn [bind]. destruct d as [d|].
    + destruct (pl_istrn pl1) as [is|]; [|reflexivity]. destruct (shell_loop _ _ _ _ _ _ _ _ _ _) as [[[[l hs] ads] o]| |] eqn:El; try reflexivity. cbn [bind].
      apply shell_loop_hist in El as (Lh & Ll & F). rewrite fill_app. cbn [fill fst aset bind]. rewrite h_free_app. cbn [h_free fst snd aget nth_error bind Nat.eqb aset].
      destruct (o =? _).
      * eexists _, _. split; [reflexivity|]. cbn [el_structs el_hists el_adds]. do 3 (split; [reflexivity|]). split; [lia|]. split; [split; [reflexivity|]; rewrite Few; repeat split|]. split; [apply F; [reflexivity|lia]|]. rewrite Lh. apply repeat_length.
      * match goal with |- context [h_free_all (h ++ ?l) ?ps] => change ps with (map (shift (length h)) [Some (1, 0); Some (0, 0); None]%nat) end. rewrite free_all_shift. cbn [h_free_all h_free_opt h_free fst snd aget nth_error bind Nat.eqb aset].
        eexists. split; [reflexivity|]. left. split; [apply given_back_app; repeat constructor|]; (discriminate || (intros _; apply Z.eqb_neq; exact W)).
    + destruct (d_ws (pl_buf pl1) =? 4) eqn:W.
      * match goal with |- context [h_free_all (h ++ ?l) ?ps] => change ps with (map (shift (length h)) [Some (2, 0); Some (1, 0)]%nat) end. rewrite free_all_shift. cbn [h_free_all h_free_opt h_free fst snd aget nth_error bind Nat.eqb aset].
        eexists. split; [reflexivity|]. right. split; [exact (words_fail _ _ _ _ _ Ew)|]. split; [apply Z.eqb_eq; exact W|]. replace (Z.to_nat (nhv c * nip c * num)) with (length H) by apply repeat_length. apply lost_app. left. reflexivity.
      * match goal with |- context [h_free_all (h ++ ?l) ?ps] => change ps with (map (shift (length h)) [Some (2, 0); Some (1, 0); Some (0, 0); None]%nat) end. rewrite free_all_shift. cbn [h_free_all h_free_opt h_free fst snd aget nth_error bind Nat.eqb aset].
        eexists. split; [reflexivity|]. left. split; [apply given_back_app; repeat constructor|]; (discriminate || (intros _; apply Z.eqb_neq; exact W)).
  - destruct (state_words_at (clear pl) num (pl_cd pl NV2D) (p + pl_ptr (clear pl) K_STATE_SHELL)) as [[pl1 d]| |] eqn:Ew; try reflexivity. cbn [bind]. destruct d as [d|].
    + destruct (pl_istrn pl1) as [is|]; [|reflexivity]. destruct (shell_loop _ _ _ _ _ _ _ _ _ _) as [[[[l hs] ads] o]| |] eqn:El; try reflexivity. cbn [bind].
      apply shell_loop_hist in El as (Lh & Ll & F). rewrite fill_app. cbn [fill fst aset bind]. rewrite h_free_app. cbn [h_free fst snd aget nth_error bind Nat.eqb aset].
      destruct (o =? _).
      * eexists _, _. split; [reflexivity|]. cbn [el_structs el_hists el_adds]. do 3 (split; [reflexivity|]). split; [lia|]. split; [split; [reflexivity|]; rewrite Few; repeat split|]. split; [apply F; [reflexivity|lia]|]. rewrite Lh. apply repeat_length.
      * match goal with |- context [h_free_all (h ++ ?l) ?ps] => change ps with (map (shift (length h)) [Some (2, 0); Some (0, 0); Some (1, 0)]%nat) end. rewrite free_all_shift. cbn [h_free_all h_free_opt h_free fst snd aget nth_error bind Nat.eqb aset].
        eexists. split; [reflexivity|]. left. split; [apply given_back_app; repeat constructor|]; (discriminate || (intros _; apply Z.eqb_neq; exact W)).
    + destruct (d_ws (pl_buf pl1) =? 4) eqn:W.
      * match goal with |- context [h_free_all (h ++ ?l) ?ps] => change ps with (map (shift (length h)) [Some (3, 0); Some (2, 0)]%nat) end. rewrite free_all_shift. cbn [h_free_all h_free_opt h_free fst snd aget nth_error bind Nat.eqb aset].
        eexists. split; [reflexivity|]. right. split; [exact (words_fail _ _ _ _ _ Ew)|]. split; [apply Z.eqb_eq; exact W|]. replace (Z.to_nat (nhv c * nip c * num)) with (length H) by apply repeat_length. apply lost_app. left. reflexivity.
      * match goal with |- context [h_free_all (h ++ ?l) ?ps] => change ps with (map (shift (length h)) [Some (3, 0); Some (2, 0); Some (0, 0); Some (1, 0)]%nat) end. rewrite free_all_shift. cbn [h_free_all h_free_opt h_free fst snd aget nth_error bind Nat.eqb aset].
        eexists. split; [reflexivity|]. left. split; [apply given_back_app; repeat constructor|]; (discriminate || (intros _; apply Z.eqb_neq; exact W)).
Qed.

Lemma thick_mem h pl s : 0 <= pl_cd pl NELT ->
  match read_thick_shells_state pl s with
  | OK (pl', Some (l, hs, ads)) => exists h' e, read_thick_shells_mem h pl s = OK (h', pl', Some e) /\ el_structs e = l /\ el_hists e = hs /\ el_adds e = ads /\
      0 < pl_cd pl NELT /\ placed (shape_of pl) (pl_cd pl NELT) h h' e /\ (exists x, nth_error l 0 = Some x /\ first_ok (shape_of pl) (ts_layers x)) /\ length hs = Z.to_nat (pl_cd pl NELT * 3 * nhv (shape_of pl))
  | OK (pl', None) => exists h', read_thick_shells_mem h pl s = OK (h', pl', None) /\ given_back h h'
  | UB => read_thick_shells_mem h pl s = UB
  | OOF => read_thick_shells_mem h pl s = OOF
  end.
Proof.
  intros Hn. unfold read_thick_shells_state, read_thick_shells_mem. change (shape_of (clear pl)) with (shape_of pl). change (pl_cd (clear pl)) with (pl_cd pl). set (num := pl_cd pl NELT) in *. set (c := shape_of pl).
  destruct (Z.eqb_spec num 0) as [Z0|Z0]; [exists h; split; [reflexivity|apply given_back_refl]|].
  destruct (state_at (clear pl) s) as [p|] eqn:Es; [|exists h; split; [reflexivity|apply given_back_refl]].
  set (H := room (num * 3 * nhv c)). set (A := room ((nip c - 3) * num)). set (E := room num). set (D := room (num * pl_cd pl NV3DT)).
  destruct (istrn_is (clear pl) 1) as [w| |]; try reflexivity. cbn [bind].
  unfold malloc_adds. rewrite malloc_nil. fold A.
  destruct (nip c <? 3) eqn:Few; [rewrite !malloc_app|rewrite !malloc_app]; cbn [app length].
  - destruct (state_words_at (clear pl) num (pl_cd pl NV3DT) (p + pl_ptr (clear pl) K_STATE_THICK_SHELL)) as [[pl1 d]| |] eqn:Ew; try reflexivity. cbn [bind]. destruct d as [d|].
    + destruct (thick_loop _ _ _ _ _ _ _ _) as [[[[l hs] ads] o]| |] eqn:El; try reflexivity. cbn [bind].
      apply thick_loop_hist in El as (Lh & Ll & F). rewrite fill_app. cbn [fill fst aset bind]. rewrite h_free_app. cbn [h_free fst snd aget nth_error bind Nat.eqb aset].
      destruct (o =? _).
      * eexists _, _. split; [reflexivity|]. cbn [el_structs el_hists el_adds]. do 3 (split; [reflexivity|]). split; [lia|]. split; [split; [reflexivity|]; rewrite Few; repeat split|]. split; [apply F; [reflexivity|lia]|]. rewrite Lh. apply repeat_length.
      * match goal with |- context [h_free_all (h ++ ?l) ?ps] => change ps with (map (shift (length h)) [Some (1, 0); Some (0, 0); None]%nat) end. rewrite free_all_shift. cbn [h_free_all h_free_opt h_free fst snd aget nth_error bind Nat.eqb aset].
        eexists. split; [reflexivity|]. apply given_back_app. repeat constructor.
    + match goal with |- context [h_free_all (h ++ ?l) ?ps] => change ps with (map (shift (length h)) [Some (2, 0); Some (1, 0); Some (0, 0); None]%nat) end. rewrite free_all_shift. cbn [h_free_all h_free_opt h_free fst snd aget nth_error bind Nat.eqb aset].
      eexists. split; [reflexivity|]. apply given_back_app. repeat constructor.
  - destruct (state_words_at (clear pl) num (pl_cd pl NV3DT) (p + pl_ptr (clear pl) K_STATE_THICK_SHELL)) as [[pl1 d]| |] eqn:Ew; try reflexivity. cbn [bind]. destruct d as [d|].
    + destruct (thick_loop _ _ _ _ _ _ _ _) as [[[[l hs] ads] o]| |] eqn:El; try reflexivity. cbn [bind].
      apply thick_loop_hist in El as (Lh & Ll & F). rewrite fill_app. cbn [fill fst aset bind]. rewrite h_free_app. cbn [h_free fst snd aget nth_error bind Nat.eqb aset].
      destruct (o =? _).
      * eexists _, _. split; [reflexivity|]. cbn [el_structs el_hists el_adds]. do 3 (split; [reflexivity|]). split; [lia|]. split; [split; [reflexivity|]; rewrite Few; repeat split|]. split; [apply F; [reflexivity|lia]|]. rewrite Lh. apply repeat_length.
      * match goal with |- context [h_free_all (h ++ ?l) ?ps] => change ps with (map (shift (length h)) [Some (2, 0); Some (0, 0); Some (1, 0)]%nat) end. rewrite free_all_shift. cbn [h_free_all h_free_opt h_free fst snd aget nth_error bind Nat.eqb aset].
        eexists. split; [reflexivity|]. apply given_back_app. repeat constructor.
    + match goal with |- context [h_free_all (h ++ ?l) ?ps] => change ps with (map (shift (length h)) [Some (3, 0); Some (2, 0); Some (0, 0); Some (1, 0)]%nat) end. rewrite free_all_shift. cbn [h_free_all h_free_opt h_free fst snd aget nth_error bind Nat.eqb aset].
      eexists. split; [reflexivity|]. apply given_back_app. repeat constructor.
Qed.

(** ** The functions that free *)
Lemma read_app h l k o i : h_read (h ++ l) (Some ((length h + k)%nat, o)) i = h_read l (Some (k, o)) i.
Proof. unfold h_read. rewrite aget_app. reflexivity. Qed.
Lemma room_head n : 0 < n -> aget (room n) 0 = OK JUNK.
Proof. intros P. unfold room, malloc. destruct (Z.to_nat n) eqn:E; [lia|]. reflexivity. Qed.

Definition rest_of (c : shape) (num : Z) (hs : cells Z) : heap :=
  (if nhv c =? 0 then Some (map number hs) else None) ::
  (if nip c <? 3 then [] else [if nip c =? 3 then Some (room ((nip c - 3) * num)) else None]) ++ [None; None].
Lemma free_placed {A} (layers_of : A -> layers) c num h h' e x : placed c num h h' e -> 0 < num -> nth_error (el_structs e) 0 = Some x -> first_ok c (layers_of x) -> 0 < nip c ->
  free_elems layers_of h' (Some e) = OK (h ++ rest_of c num (el_hists e)).
Proof.
  intros (Ph & P) Hn Hx (Fm & _ & Fa) Pi. destruct (Fm Pi) as (mid & Em & Eh). unfold free_elems, rest_of, surface_hist, struct_adds, at_off. rewrite Ph. unfold aget. rewrite Hx. cbn [bind]. rewrite Fa, Em. cbn [init bind]. rewrite Eh.
  destruct (Z.ltb_spec (nip c) 3) as [Few|Few]; destruct P as (-> & -> & ->).
  - rewrite read_app. cbn [h_read aget nth_error bind Nat.add]. rewrite room_head by exact Hn. cbn [bind].
    destruct (Z.leb_spec (nip c) 3); [|lia]. cbn [fst snd]. destruct (nhv c =? 0); cbn [option_map].
    + match goal with |- context [h_free_all (h ++ ?l) ?ps] => change ps with (map (shift (length h)) [None; None; Some (1, 0)]%nat) end. rewrite free_all_shift. reflexivity.
    + match goal with |- context [h_free_all (h ++ ?l) ?ps] => change ps with (map (shift (length h)) [Some (0, 0); None; Some (1, 0)]%nat) end. rewrite free_all_shift. reflexivity.
  - rewrite read_app. cbn [h_read aget nth_error bind Nat.add]. rewrite room_head by exact Hn. cbn [bind].
    destruct (Z.leb_spec (nip c) 3), (Z.eqb_spec (nip c) 3); try lia; cbn [fst snd]; destruct (nhv c =? 0); cbn [option_map].
    + match goal with |- context [h_free_all (h ++ ?l) ?ps] => change ps with (map (shift (length h)) [None; None; Some (2, 0)]%nat) end. rewrite free_all_shift. reflexivity.
    + match goal with |- context [h_free_all (h ++ ?l) ?ps] => change ps with (map (shift (length h)) [Some (0, 0); None; Some (2, 0)]%nat) end. rewrite free_all_shift. reflexivity.
    + match goal with |- context [h_free_all (h ++ ?l) ?ps] => change ps with (map (shift (length h)) [None; Some (1, 0); Some (2, 0)]%nat) end. rewrite free_all_shift. reflexivity.
    + match goal with |- context [h_free_all (h ++ ?l) ?ps] => change ps with (map (shift (length h)) [Some (0, 0); Some (1, 0); Some (2, 0)]%nat) end. rewrite free_all_shift. reflexivity.
Qed.
Lemma free_unset {A} (layers_of : A -> layers) c num h h' e x : placed c num h h' e -> 0 < num -> nth_error (el_structs e) 0 = Some x -> first_ok c (layers_of x) -> nip c <= 0 ->
  free_elems layers_of h' (Some e) = UB.
Proof.
  intros (Ph & P) Hn Hx (_ & Fm & Fa) Pi. unfold free_elems. destruct (Z.ltb_spec (nip c) 3); [|lia]. destruct P as (-> & _ & ->).
  rewrite read_app. cbn [h_read aget nth_error bind Nat.add]. rewrite room_head by exact Hn. cbn [bind]. unfold aget. rewrite Hx. cbn [bind]. rewrite Fm by exact Pi. reflexivity.
Qed.
Lemma rest_freed c num hs : 0 < nhv c -> nip c <> 3 -> Forall (fun b => b = None) (rest_of c num hs).
Proof. intros H P. unfold rest_of. destruct (Z.eqb_spec (nhv c) 0); [lia|]. destruct (Z.eqb_spec (nip c) 3); [lia|]. destruct (nip c <? 3); repeat constructor. Qed.
Lemma rest_hist c num hs : nhv c = 0 -> In (Some (map number hs)) (rest_of c num hs).
Proof. intros Q. unfold rest_of. rewrite Q. left. reflexivity. Qed.
Lemma rest_add c num hs : nip c = 3 -> In (Some []) (rest_of c num hs).
Proof. intros P. unfold rest_of. rewrite P. right. left. reflexivity. Qed.

(** ** Beams *)
Lemma store_length {A} (m : cells A) off l m' : D3ElemModel.store m off l = OK m' -> length m' = length m.
Proof.
  unfold D3ElemModel.store. destruct ((0 <=? _) && _) eqn:E; [|discriminate]. intros [= <-]. apply andb_prop in E as (E1 & E2). apply Z.leb_le in E1, E2.
  rewrite !app_length, map_length, firstn_length, skipn_length. lia.
Qed.
Lemma store_nth {A} (m : cells A) off l m' k : D3ElemModel.store m off l = OK m' -> (Z.of_nat k < off \/ off + Z.of_nat (length l) <= Z.of_nat k) -> nth_error m' k = nth_error m k.
Proof.
  unfold D3ElemModel.store. destruct ((0 <=? _) && _) eqn:E; [|discriminate]. intros [= <-]. apply andb_prop in E as (E1 & E2). apply Z.leb_le in E1, E2.
  assert (Lf : length (firstn (Z.to_nat off) m) = Z.to_nat off) by (rewrite firstn_length; lia).
  intros [L|L].
  - rewrite nth_error_app1 by lia. rewrite <- (firstn_skipn (Z.to_nat off) m) at 2. rewrite nth_error_app1 by lia. reflexivity.
  - rewrite nth_error_app2 by lia. rewrite nth_error_app2 by (rewrite map_length; lia). rewrite Lf, map_length. rewrite <- (firstn_skipn (Z.to_nat off + length l) m) at 2.
    rewrite nth_error_app2 by (rewrite firstn_length; lia). rewrite firstn_length. f_equal. lia.
Qed.
Lemma store_here {A} (m : cells A) off x m' : D3ElemModel.store m off [x] = OK m' -> nth_error m' (Z.to_nat off) = Some (Some x).
Proof.
  unfold D3ElemModel.store. destruct ((0 <=? _) && _) eqn:E; [|discriminate]. intros [= <-]. apply andb_prop in E as (E1 & E2). apply Z.leb_le in E1, E2. cbn [length] in E2.
  assert (Lf : length (firstn (Z.to_nat off) m) = Z.to_nat off) by (rewrite firstn_length; lia). rewrite nth_error_app2 by lia. rewrite Lf, Nat.sub_diag. reflexivity.
Qed.
Lemma beam_ips_facts nip nhv i d : 0 <= i -> 0 <= nip -> forall vs j ips hist o ips' hist' o', beam_ips nip nhv i d vs j ips hist o = OK (ips', hist', o') -> 0 <= j ->
  length ips' = length ips /\ length hist' = length hist /\
  (i + j <> 0 -> forall x, nth_error ips 0 = Some (Some x) -> (0 < i -> 0 < nip) -> nth_error ips' 0 = Some (Some x)) /\
  (i = 0 -> j = 0 -> vs <> [] -> exists x, nth_error ips' 0 = Some (Some x) /\ ip_hist x = 0).
Proof.
  intros Hi Hp. induction vs as [|v vs IH]; intros j ips hist o ips' hist' o' E J; cbn [beam_ips] in E.
  - injection E as <- <- <-. repeat split; auto. congruence.
  - destruct (take d o nhv) as [hv| |]; try discriminate. cbn [bind] in E. destruct (D3ElemModel.store hist _ hv) as [hist1| |] eqn:E1; try discriminate. cbn [bind] in E.
    destruct (D3ElemModel.store ips _ _) as [ips1| |] eqn:E2; try discriminate. cbn [bind] in E. pose proof (IH _ _ _ _ _ _ _ E ltac:(lia)) as (L1 & L2 & K & _).
    rewrite L1, L2, (store_length _ _ _ _ E1), (store_length _ _ _ _ E2). split; [reflexivity|]. split; [reflexivity|]. split.
    + intros N x Q P. apply K; [lia| |exact P]. rewrite (store_nth _ _ _ _ 0 E2); [exact Q|]. left. cbn. destruct (Z.eq_dec j 0) as [->|]; nia.
    + intros -> -> _. eexists. split; [apply K; [lia| |lia]|].
      * rewrite (store_here ips 0 _ ips1 E2 : nth_error ips1 0 = _). reflexivity.
      * cbn [ip_hist]. lia.
Qed.
Lemma beam_loop_facts nip nhv avg d : 0 <= nip -> forall n i ips hist o l ips' hist' o', beam_loop nip nhv avg d n i ips hist o = OK (l, ips', hist', o') -> 0 <= i ->
  length ips' = length ips /\ length hist' = length hist /\ length l = n /\
  (0 < i -> forall x, nth_error ips 0 = Some (Some x) -> 0 < nip -> nth_error ips' 0 = Some (Some x)) /\
  (i = 0 -> (0 < n)%nat -> exists x, nth_error l 0 = Some x /\ be_ips x = 0 /\ (0 < nip -> exists p, nth_error ips' 0 = Some (Some p) /\ ip_hist p = 0)).
Proof.
  intros Hp. induction n as [|n IH]; intros i ips hist o l ips' hist' o' E Hi; cbn [beam_loop] in E; [injection E as <- <- <- <-; repeat split; auto; lia|].
  destruct (take d o 6) as [r| |]; try discriminate. cbn [bind] in E. destruct (beam_values d (Z.to_nat nip) (o + 6)) as [[vs o1]| |] eqn:Ev; try discriminate. cbn [bind] in E.
  destruct (take d o1 nhv) as [h0| |]; try discriminate. cbn [bind] in E. destruct (D3ElemModel.store hist _ h0) as [hi1| |] eqn:E1; try discriminate. cbn [bind] in E.
  destruct (take d (o1 + nhv) nhv) as [h1| |]; try discriminate. cbn [bind] in E. destruct (D3ElemModel.store hi1 _ h1) as [hi2| |] eqn:E2; try discriminate. cbn [bind] in E.
  destruct (take d (o1 + nhv + nhv) nhv) as [h2| |]; try discriminate. cbn [bind] in E. destruct (D3ElemModel.store hi2 _ h2) as [hi3| |] eqn:E3; try discriminate. cbn [bind] in E.
  destruct (beam_ips nip nhv i d vs 0 ips hi3 _) as [[[ips1 hi4] o2]| |] eqn:E4; try discriminate. cbn [bind] in E. destruct (beam_loop _ _ _ _ _ _ _ _ _) as [[[[l1 ips2] hi5] o3]| |] eqn:E5; try discriminate. cbn [bind] in E. injection E as <- <- <- <-.
  apply beam_ips_facts in E4 as (L1 & L2 & K4 & F4); try lia. apply IH in E5 as (L3 & L4 & Ln & K5 & _); [|lia]. rewrite L3, L4, L1, L2, (store_length _ _ _ _ E3), (store_length _ _ _ _ E2), (store_length _ _ _ _ E1). split; [reflexivity|]. split; [reflexivity|]. split; [cbn [length]; congruence|]. split.
  - intros Pi x Q P. apply K5; [lia| |exact P]. apply K4; [lia|exact Q|auto].
  - intros -> _. eexists. split; [reflexivity|]. cbn [be_ips]. split; [lia|]. intros P.
    assert (Nv : vs <> []).
    { intros ->. destruct (Z.to_nat nip) eqn:En; [lia|]. cbn [beam_values] in Ev. destruct (take d (o + 6) 5); try discriminate. cbn [bind] in Ev. destruct (beam_values _ _ _) as [[? ?]| |]; discriminate. }
    destruct (F4 eq_refl eq_refl Nv) as (x & Qx & Hx). exists x. split; [|exact Hx]. apply K5; [lia|exact Qx|exact P].
Qed.

Definition beams_placed (nip nhv num : Z) (h h' : heap) (e : beams_mem) : Prop :=
  bm_ip e = (length h + 0, 0)%nat /\ bm_hist e = (length h + 1, 0)%nat /\ bm_block e = (length h + 2, 0)%nat /\
  h' = h ++ [Some (room (num * nip)); Some (map number (bm_hists e)); Some (room num); None].
Lemma beams_mem_ok h pl s : 0 <= pl_cd pl NEL2 ->
  match read_beams_state pl s with
  | OK (pl', Some (l, ips, hs)) => exists h' e, read_beams_mem h pl s = OK (h', pl', Some e) /\ bm_structs e = l /\ bm_ips e = ips /\ bm_hists e = hs /\
      0 < pl_cd pl NEL2 /\ beams_placed (u8 (pl_cd pl BEAMIP)) (u8 (pl_cd pl NEIPB)) (pl_cd pl NEL2) h h' e /\ pl_cd pl BEAMIP <= 255 /\
      (exists x, nth_error l 0 = Some x /\ be_ips x = 0 /\ (0 < u8 (pl_cd pl BEAMIP) -> exists p, nth_error ips 0 = Some (Some p) /\ ip_hist p = 0))
  | OK (pl', None) => exists h', read_beams_mem h pl s = OK (h', pl', None) /\
      (given_back h h' \/ ((255 <? pl_cd pl NEIPB) || (255 <? pl_cd pl BEAMIP) = false /\ lost (Z.of_nat (Z.to_nat (pl_cd pl NEL2 * u8 (pl_cd pl BEAMIP)))) h h' /\ lost (Z.of_nat (Z.to_nat (pl_cd pl NEL2 * u8 (pl_cd pl NEIPB) * (3 + u8 (pl_cd pl BEAMIP))))) h h'))
      /\ (pl_err pl' = Some P_sanity \/ pl_err pl' = Some P_words -> ~ given_back h h')
  | UB => read_beams_mem h pl s = UB
  | OOF => read_beams_mem h pl s = OOF
  end.
Proof.
  intros Hn. unfold read_beams_state, read_beams_mem. change (pl_cd (clear pl)) with (pl_cd pl). set (num := pl_cd pl NEL2) in *.
  destruct (Z.eqb_spec num 0) as [Z0|Z0]; [exists h; split; [reflexivity|]; split; [left; apply given_back_refl|intros [|]; discriminate]|].
  destruct (state_at (clear pl) s) as [p|] eqn:Es; [|exists h; split; [reflexivity|]; split; [left; apply given_back_refl|intros [|]; discriminate]].
  destruct ((255 <? pl_cd pl NEIPB) || (255 <? pl_cd pl BEAMIP)) eqn:Big; [exists h; split; [reflexivity|]; split; [left; apply given_back_refl|intros [|]; discriminate]|].
  set (P := u8 (pl_cd pl BEAMIP)). set (V := u8 (pl_cd pl NEIPB)). set (A := room (num * P)). set (H := room (num * V * (3 + P))). set (E := room num). set (D := room (num * pl_cd pl NV1D)).
  rewrite malloc_nil, !malloc_app. cbn [app length]. assert (P0 : 0 <= P) by (unfold P, u8; apply Z.mod_pos_bound; lia).
  destruct (state_words_at (clear pl) num (pl_cd pl NV1D) (p + pl_ptr (clear pl) K_STATE_BEAM)) as [[pl1 d]| |] eqn:Ew; try reflexivity. cbn [bind].
  assert (LA : length A = Z.to_nat (num * P)) by apply repeat_length. assert (LH : length H = Z.to_nat (num * V * (3 + P))) by apply repeat_length.
  destruct d as [d|].
  - destruct (beam_loop _ _ _ _ _ _ _ _ _) as [[[[l ips] hs] o]| |] eqn:El; try reflexivity. cbn [bind]. apply beam_loop_facts in El as (L1 & L2 & Ll & _ & F); try lia.
    rewrite fill_app. cbn [fill fst aset bind]. rewrite h_free_app. cbn [h_free fst snd aget nth_error bind Nat.eqb aset]. destruct (o =? _).
    + eexists _, _. split; [reflexivity|]. cbn [bm_structs bm_ips bm_hists]. do 3 (split; [reflexivity|]). split; [lia|]. split; [repeat split|]. split; [apply orb_false_elim in Big as (_ & Big); apply Z.ltb_ge; exact Big|]. apply F; [reflexivity|lia].
    + match goal with |- context [h_free_all (h ++ ?l) ?ps] => change ps with (map (shift (length h)) [Some (2, 0)]%nat) end. rewrite free_all_shift. cbn [h_free_all h_free_opt h_free fst snd aget nth_error bind Nat.eqb aset].
      assert (LL : lost (Z.of_nat (Z.to_nat (num * P))) h (h ++ [Some A; Some (map number hs); None; None])) by (rewrite <- LA; apply lost_app; left; reflexivity).
      eexists. split; [reflexivity|]. split.
      * right. split; [reflexivity|]. split; [exact LL|]. replace (Z.to_nat (num * V * (3 + P))) with (length (map number hs)) by (rewrite map_length, L2; apply repeat_length). apply lost_app. right. left. reflexivity.
      * intros _ (_ & G). destruct LL as (b & c & Lb & Q & _). exact (G b c Lb Q).
  - match goal with |- context [h_free_all (h ++ ?l) ?ps] => change ps with (map (shift (length h)) [Some (3, 0); Some (2, 0)]%nat) end. rewrite free_all_shift. cbn [h_free_all h_free_opt h_free fst snd aget nth_error bind Nat.eqb aset].
    assert (LL : lost (Z.of_nat (Z.to_nat (num * P))) h (h ++ [Some A; Some H; None; None])) by (rewrite <- LA; apply lost_app; left; reflexivity).
    eexists. split; [reflexivity|]. split.
    + right. split; [reflexivity|]. split; [exact LL|]. rewrite <- LH. apply lost_app. right. left. reflexivity.
    + intros _ (_ & G). destruct LL as (b & c & Lb & Q & _). exact (G b c Lb Q).
Qed.
Lemma block_head k n l : nth_error l k = Some (Some (room n)) -> 0 < n -> h_read l (Some (k, 0%nat)) 0 = OK JUNK.
Proof. intros Q P. unfold h_read. rewrite (proj2 (aget_OK _ _ _) Q). cbn [bind Nat.add]. apply room_head. exact P. Qed.
Lemma free_beams_placed nip nhv num h h' e x p : beams_placed nip nhv num h h' e -> 0 < num -> 0 < nip -> nth_error (bm_structs e) 0 = Some x -> be_ips x = 0 -> nth_error (bm_ips e) 0 = Some (Some p) -> ip_hist p = 0 ->
  free_beams_state h' (Some e) = OK (h ++ [None; None; None; None]).
Proof.
  intros (Pi & Ph & Pb & ->) Hn Hp Hx Ex Hq Eq. unfold free_beams_state. rewrite Pb, read_app. rewrite (block_head 2 num) by (reflexivity || exact Hn). cbn [bind]. unfold aget at 1. rewrite Hx. cbn [bind].
  rewrite Pi, Ph, Ex. unfold at_off. cbn [fst snd]. change (0 + Z.to_nat 0)%nat with 0%nat. rewrite read_app. rewrite (block_head 0 (num * nip)) by (reflexivity || nia). cbn [bind]. unfold aget. rewrite Hq. cbn [bind init]. rewrite Eq. change (0 + Z.to_nat 0)%nat with 0%nat.
  match goal with |- context [h_free_all (h ++ ?l) ?ps] => change ps with (map (shift (length h)) [Some (1, 0); Some (0, 0); Some (2, 0)]%nat) end. rewrite free_all_shift. reflexivity.
Qed.
Lemma free_beams_none nhv num h h' e x : beams_placed 0 nhv num h h' e -> 0 < num -> nth_error (bm_structs e) 0 = Some x -> be_ips x = 0 -> free_beams_state h' (Some e) = UB.
Proof.
  intros (Pi & Ph & Pb & ->) Hn Hx Ex. unfold free_beams_state. rewrite Pb, read_app. rewrite (block_head 2 num) by (reflexivity || exact Hn). cbn [bind]. unfold aget at 1. rewrite Hx. cbn [bind].
  rewrite Pi, Ex. unfold at_off. cbn [fst snd]. change (0 + Z.to_nat 0)%nat with 0%nat. rewrite read_app. rewrite Z.mul_0_r. reflexivity.
Qed.
