(** * Proofs: families of d3plot files of which only some are open *)
From Verif Require Import CBase CBaseFacts BinModel D3BufModel D3BufSpec D3BufProofs D3SeqModel D3SeqSpec.

Lemma aset_nth {A} (a : list A) i v : i < length a -> exists a', aset a i v = OK a' /\ length a' = length a /\ forall j, nth_error a' j = if j =? i then Some v else nth_error a j.
Proof.
  revert i. induction a as [|x a IH]; intros i L; [cbn in L; lia|]. destruct i as [|i].
  - exists (v :: a). split; [reflexivity|]. split; [reflexivity|]. intros [|j]; reflexivity.
  - destruct (IH i) as (a' & E & La & N); [cbn in L; lia|]. exists (x :: a'). cbn [aset]. rewrite E. split; [reflexivity|]. split; [cbn; lia|].
    intros [|j]; [reflexivity|]. cbn [nth_error]. rewrite N. reflexivity.
Qed.

Definition opn (b : sbuf) (i : nat) : bool := match nth_error (s_files b) i with Some f => sf_open f | None => false end.
(** The same family, with other files open. *)
Record same (b b' : sbuf) : Prop := {
  sm_files : map sf_file (s_files b') = map sf_file (s_files b);
  sm_ws : s_ws b' = s_ws b;
  sm_err : s_err b' = s_err b;
  sm_limit : s_limit b' = s_limit b
}.
Lemma same_refl b : same b b.
Proof. split; reflexivity. Qed.
Lemma same_trans a b c : same a b -> same b c -> same a c.
Proof. intros [] []. split; congruence. Qed.
Lemma same_len b b' : same b b' -> length (s_files b') = length (s_files b).
Proof. intros [E _ _ _]. apply (f_equal (@length _)) in E. rewrite !map_length in E. exact E. Qed.
Lemma same_erase b b' : same b b' -> erase b' = erase b.
Proof. intros [E1 E2 E3 _]. unfold erase. rewrite E1, E2, E3. reflexivity. Qed.
Lemma same_openable b b' : same b b' -> openable b -> openable b'.
Proof.
  intros [E _ _ _] O f I. apply (in_map sf_file) in I. rewrite E in I. apply in_map_iff in I. destruct I as (g & Eg & Ig). rewrite <- Eg. apply O, Ig.
Qed.
Lemma same_window b first last : same b (s_set_window b first last).
Proof. split; reflexivity. Qed.

Lemma fclose_ok b i : i < length (s_files b) -> exists b', s_fclose b i = OK b' /\ same b b' /\ s_first b' = s_first b /\ s_last b' = s_last b /\
  (forall j, opn b' j = if j =? i then false else opn b j) /\ s_count b' = if opn b i then s_count b - 1 else s_count b.
Proof.
  intros L. unfold s_fclose. destruct (nth_error (s_files b) i) as [f|] eqn:E; [|apply nth_error_None in E; lia].
  rewrite (proj2 (aget_OK _ _ _) E). cbn [bind]. assert (Ei : opn b i = sf_open f) by (unfold opn; rewrite E; reflexivity). rewrite Ei.
  destruct (sf_open f) eqn:Of.
  - destruct (aset_nth (s_files b) i {| sf_file := sf_file f; sf_open := false |} L) as (a & -> & La & N). cbn [bind].
    eexists. split; [reflexivity|]. split; [|split; [reflexivity|split; [reflexivity|split; [|reflexivity]]]].
    + split; try reflexivity. cbn [s_set_files s_files]. apply nth_error_ext. intros j. rewrite !nth_error_map, N. destruct (Nat.eqb_spec j i) as [-> |]; [rewrite E; reflexivity|reflexivity].
    + intros j. unfold opn. cbn [s_set_files s_files]. rewrite N. destruct (j =? i); reflexivity.
  - exists b. split; [reflexivity|]. split; [apply same_refl|]. split; [reflexivity|]. split; [reflexivity|]. split; [|reflexivity].
    intros j. destruct (Nat.eqb_spec j i) as [-> |]; [exact Ei|reflexivity].
Qed.
Lemma fopen_ok b i : openable b -> i < length (s_files b) -> exists b', s_fopen b i = OK (b', s_count b <? s_limit b) /\ same b b' /\ s_first b' = s_first b /\ s_last b' = s_last b /\
  (forall j, opn b' j = if j =? i then s_count b <? s_limit b else opn b j) /\ s_count b' = if s_count b <? s_limit b then s_count b + 1 else s_count b.
Proof.
  intros O L. unfold s_fopen. destruct (nth_error (s_files b) i) as [f|] eqn:E; [|apply nth_error_None in E; lia].
  rewrite (proj2 (aget_OK _ _ _) E). cbn [bind]. rewrite (O f (nth_error_In _ _ E)), andb_true_r.
  destruct (aset_nth (s_files b) i {| sf_file := sf_file f; sf_open := s_count b <? s_limit b |} L) as (a & -> & La & N). cbn [bind].
  eexists. split; [reflexivity|]. split; [|split; [reflexivity|split; [reflexivity|split; [|reflexivity]]]].
  - split; try reflexivity. cbn [s_set_files s_files]. apply nth_error_ext. intros j. rewrite !nth_error_map, N. destruct (Nat.eqb_spec j i) as [-> |]; [rewrite E; reflexivity|reflexivity].
  - intros j. unfold opn. cbn [s_set_files s_files]. rewrite N. destruct (j =? i); reflexivity.
Qed.

Lemma close_up_ok : forall n b i, i + n <= length (s_files b) -> (forall j, i <= j < i + n -> opn b j = true) -> n <= s_count b ->
  exists b', s_close_up b i n = OK b' /\ same b b' /\ s_first b' = s_first b /\ s_last b' = s_last b /\
    (forall j, opn b' j = if (i <=? j) && (j <? i + n) then false else opn b j) /\ s_count b' = s_count b - n.
Proof.
  induction n as [|n IH]; intros b i L O C; cbn [s_close_up].
  - exists b. split; [reflexivity|]. split; [apply same_refl|]. repeat (split; [reflexivity|]). split; [|lia]. intros j. destruct (Nat.leb_spec i j), (Nat.ltb_spec j (i + 0)); try reflexivity; lia.
  - destruct (fclose_ok b i ltac:(lia)) as (b1 & -> & S1 & F1 & L1 & N1 & C1). cbn [bind]. rewrite (O i) in C1 by lia.
    destruct (IH b1 (i + 1)) as (b2 & -> & S2 & F2 & L2 & N2 & C2); [rewrite (same_len _ _ S1); lia| |lia|].
    + intros j J. rewrite N1. destruct (Nat.eqb_spec j i); [lia|]. apply O. lia.
    + exists b2. split; [reflexivity|]. split; [apply (same_trans _ _ _ S1 S2)|]. split; [congruence|]. split; [congruence|]. split; [|lia].
      intros j. rewrite N2, N1. destruct (Nat.leb_spec (i + 1) j), (Nat.ltb_spec j (i + 1 + n)), (Nat.leb_spec i j), (Nat.ltb_spec j (i + S n)), (Nat.eqb_spec j i); cbn; try reflexivity; lia.
Qed.
Lemma close_down_ok : forall n b i, n <= i + 1 -> i < length (s_files b) -> (forall j, i < j + n -> j <= i -> opn b j = true) -> n <= s_count b ->
  exists b', s_close_down b i n = OK b' /\ same b b' /\ s_first b' = s_first b /\ s_last b' = s_last b /\
    (forall j, opn b' j = if (i <? j + n) && (j <=? i) then false else opn b j) /\ s_count b' = s_count b - n.
Proof.
  induction n as [|n IH]; intros b i Ln L O C; cbn [s_close_down].
  - exists b. split; [reflexivity|]. split; [apply same_refl|]. repeat (split; [reflexivity|]). split; [|lia]. intros j. destruct (Nat.ltb_spec i (j + 0)), (Nat.leb_spec j i); try reflexivity; lia.
  - destruct (fclose_ok b i ltac:(lia)) as (b1 & -> & S1 & F1 & L1 & N1 & C1). cbn [bind]. rewrite (O i) in C1 by lia.
    destruct n as [|n].
    + cbn [s_close_down]. exists b1. split; [reflexivity|]. split; [exact S1|]. split; [exact F1|]. split; [exact L1|]. split; [|lia].
      intros j. rewrite N1. destruct (Nat.ltb_spec i (j + 1)), (Nat.leb_spec j i), (Nat.eqb_spec j i); cbn; try reflexivity; lia.
    + destruct (IH b1 (i - 1)) as (b2 & -> & S2 & F2 & L2 & N2 & C2); [lia|rewrite (same_len _ _ S1); lia| |lia|].
      * intros j J J'. rewrite N1. destruct (Nat.eqb_spec j i); [lia|]. apply O; lia.
      * exists b2. split; [reflexivity|]. split; [apply (same_trans _ _ _ S1 S2)|]. split; [congruence|]. split; [congruence|]. split; [|lia].
        intros j. rewrite N2, N1. destruct (Nat.ltb_spec (i - 1) (j + S n)), (Nat.leb_spec j (i - 1)), (Nat.ltb_spec i (j + S (S n))), (Nat.leb_spec j i), (Nat.eqb_spec j i); cbn; try reflexivity; lia.
Qed.
Lemma open_up_ok : forall n b i, openable b -> i + n <= length (s_files b) ->
  exists b', s_open_up b i n = OK (b', s_count b + n <=? s_limit b) /\ same b b' /\ s_first b' = s_first b /\ s_last b' = s_last b /\
    (s_count b + n <= s_limit b -> (forall j, opn b' j = if (i <=? j) && (j <? i + n) then true else opn b j) /\ s_count b' = s_count b + n) \/
  s_limit b < s_count b.
Proof.
  induction n as [|n IH]; intros b i O L; cbn [s_open_up].
  - destruct (Nat.le_gt_cases (s_count b) (s_limit b)) as [Lc|Lc]; [|exists b; right; lia].
    exists b. left. rewrite Nat.add_0_r. destruct (Nat.leb_spec (s_count b) (s_limit b)); [|lia]. split; [reflexivity|]. split; [apply same_refl|]. repeat (split; [reflexivity|]).
    intros _. split; [|lia]. intros j. destruct (Nat.leb_spec i j), (Nat.ltb_spec j (i + 0)); try reflexivity; lia.
  - destruct (fopen_ok b i O ltac:(lia)) as (b1 & -> & S1 & F1 & L1 & N1 & C1). cbn [bind]. destruct (Nat.ltb_spec (s_count b) (s_limit b)) as [Lc|Lc].
    + destruct (IH b1 (i + 1)) as (b2 & [(-> & S2 & F2 & L2 & R2)|Bad]); [apply (same_openable _ _ S1 O)|rewrite (same_len _ _ S1); lia| |].
      * exists b2. left. rewrite C1, (sm_limit _ _ S1) in *. replace (s_count b + 1 + n) with (s_count b + S n) in * by lia. split; [reflexivity|]. split; [apply (same_trans _ _ _ S1 S2)|].
        split; [congruence|]. split; [congruence|]. intros Le. destruct (R2 Le) as (N2 & C2). split; [|lia].
        intros j. rewrite N2, N1. destruct (Nat.leb_spec (i + 1) j), (Nat.ltb_spec j (i + 1 + n)), (Nat.leb_spec i j), (Nat.ltb_spec j (i + S n)), (Nat.eqb_spec j i); cbn; try reflexivity; lia.
      * rewrite (sm_limit _ _ S1), C1 in Bad. lia.
    + exists b1. destruct (Nat.leb_spec (s_count b + S n) (s_limit b)); [lia|]. left. split; [reflexivity|]. split; [exact S1|]. split; [exact F1|]. split; [exact L1|]. lia.
Qed.
Lemma open_down_ok : forall n b i, openable b -> n <= i + 1 -> i < length (s_files b) -> s_count b <= s_limit b ->
  exists b', s_open_down b i n = OK (b', s_count b + n <=? s_limit b) /\ same b b' /\ s_first b' = s_first b /\ s_last b' = s_last b.
Proof.
  induction n as [|n IH]; intros b i O Ln L Lc; cbn [s_open_down].
  - exists b. rewrite Nat.add_0_r. destruct (Nat.leb_spec (s_count b) (s_limit b)); [|lia]. split; [reflexivity|]. split; [apply same_refl|]. split; reflexivity.
  - destruct (fopen_ok b i O ltac:(lia)) as (b1 & -> & S1 & F1 & L1 & N1 & C1). cbn [bind]. destruct (Nat.ltb_spec (s_count b) (s_limit b)) as [Lc'|Lc'].
    + destruct n as [|n].
      * cbn [s_open_down]. exists b1. destruct (Nat.leb_spec (s_count b + 1) (s_limit b)); [|lia]. auto.
      * destruct (IH b1 (i - 1)) as (b2 & -> & S2 & F2 & L2); [apply (same_openable _ _ S1 O)|lia|rewrite (same_len _ _ S1); lia|rewrite C1, (sm_limit _ _ S1); lia|].
        exists b2. rewrite C1, (sm_limit _ _ S1). replace (s_count b + 1 + S n) with (s_count b + S (S n)) by lia. split; [reflexivity|]. split; [apply (same_trans _ _ _ S1 S2)|]. split; congruence.
    + exists b1. destruct (Nat.leb_spec (s_count b + S n) (s_limit b)); [lia|]. auto.
Qed.

Lemma window_opn b : window b -> forall j, opn b j = ((s_first b <=? j) && (j <=? s_last b))%bool.
Proof.
  intros (L & _ & W & _) j. unfold opn. destruct (nth_error (s_files b) j) as [f|] eqn:E; [apply (W j f E)|].
  apply nth_error_None in E. destruct (Nat.leb_spec (s_first b) j), (Nat.leb_spec j (s_last b)); try reflexivity; lia.
Qed.
Lemma opn_window b : s_first b <= s_last b < length (s_files b) -> length (s_files b) <= 1000 -> (forall j, opn b j = ((s_first b <=? j) && (j <=? s_last b))%bool) ->
  s_count b = s_last b + 1 - s_first b -> s_count b <= s_limit b -> window b.
Proof. intros L K N C Lim. split; [exact L|]. split; [exact K|]. split; [|auto]. intros i f E. rewrite <- N. unfold opn. rewrite E. reflexivity. Qed.

Lemma far_spec b i : window b -> i < length (s_files b) -> ~ in_window b i -> (s_out_of_range b i = true <-> far b i).
Proof.
  intros ((L1 & L2) & K & _ & C & _) Li NW. unfold s_out_of_range, far, in_window in *.
  destruct (Z.ltb_spec (Z.of_nat (s_first b)) (Z.of_nat (s_last b))) as [Lt|Lt]; [|split; [discriminate|intros (? & _); lia]].
  destruct (Z.ltb_spec (Z.of_nat (s_last b)) (Z.of_nat i)) as [Ll|Ll]; rewrite !u64_id by lia; rewrite Z.ltb_lt; split; intros H; lia.
Qed.

Lemma move_far_ok b i : window b -> openable b -> i < length (s_files b) -> far b i ->
  exists b', s_move_far b i = OK (b', true) /\ same b b' /\ window b' /\ in_window b' i /\ s_count b' = s_count b.
Proof.
  intros W O Li (Lt & F). pose proof (window_opn b W) as N. pose proof W as ((L1 & L2) & K & _ & C & Lim). unfold s_move_far.
  set (r := s_last b + 1 - s_first b) in *.
  destruct (close_up_ok r b (s_first b)) as (b1 & -> & S1 & F1 & La1 & N1 & C1); [lia| |lia|].
  { intros j J. rewrite N. destruct (Nat.leb_spec (s_first b) j), (Nat.leb_spec j (s_last b)); try reflexivity; lia. }
  cbn [bind]. rewrite (same_len _ _ S1), La1. set (n := length (s_files b)) in *.
  set (so := if n - i <? r then i - (n - r) else 0).
  assert (Hi : i - so + r <= n /\ i - so <= i < i - so + r) by (unfold so; destruct (Nat.ltb_spec (n - i) r); lia).
  set (k := i - so) in *. clearbody k. clear so.
  set (b2 := s_set_window b1 k (s_last b)). assert (S2 : same b b2) by (apply (same_trans _ _ _ S1), same_window).
  destruct (open_up_ok r b2 k) as (b3 & [(E3 & S3 & F3 & La3 & R3)|Bad]); [apply (same_openable _ _ S2 O)|rewrite (same_len _ _ S2); fold n; lia| |].
  2:{ rewrite (sm_limit _ _ S2) in Bad. unfold b2 in Bad. cbn [s_set_window s_count] in Bad. lia. }
  assert (C2 : s_count b2 = 0) by (unfold b2; cbn [s_set_window s_count]; lia). rewrite (sm_limit _ _ S2), C2 in *.
  destruct (Nat.leb_spec (0 + r) (s_limit b)) as [Le|]; [|lia]. destruct (R3 Le) as (N3 & C3). rewrite E3. cbn [bind].
  eexists. split; [reflexivity|]. assert (S4 : same b (s_set_window b3 (s_first b3) (k + r - 1))) by (apply (same_trans _ _ _ S2), (same_trans _ _ _ S3), same_window).
  split; [exact S4|]. assert (Fk : s_first b3 = k) by (rewrite F3; reflexivity).
  split; [|split; [unfold in_window; cbn [s_set_window s_first s_last]; lia|cbn [s_set_window s_count]; lia]].
  apply opn_window; cbn [s_set_window s_first s_last s_files s_count s_limit].
  - rewrite (same_len _ _ (same_trans _ _ _ S2 S3)). fold n. lia.
  - rewrite (same_len _ _ (same_trans _ _ _ S2 S3)). fold n. lia.
  - intros j. change (opn b3 j = ((s_first b3 <=? j) && (j <=? k + r - 1))%bool). rewrite N3. change (opn b2 j) with (opn b1 j). rewrite N1, N, Fk.
    destruct (Nat.leb_spec k j), (Nat.ltb_spec j (k + r)), (Nat.leb_spec j (k + r - 1)), (Nat.leb_spec (s_first b) j), (Nat.ltb_spec j (s_first b + r)), (Nat.leb_spec j (s_last b)); cbn; try reflexivity; lia.
  - lia.
  - rewrite (sm_limit _ _ S3), (sm_limit _ _ S2). lia.
Qed.

(** Moving to a neighbour: one file too many is opened. *)
Lemma move_near b i : window b -> openable b -> near b i ->
  exists b', s_move b i = (if s_count b <? s_limit b then if i =? 0 then UB else OK (b', true) else OK (b', false)) /\ same b b' /\
    (s_count b < s_limit b -> s_last b < i -> s_first b' = s_first b + (i - s_last b) /\ s_last b' = i /\ s_count b' = s_count b + 1 /\ opn b' i = true).
Proof.
  intros W O (Lt & Li & NW & NF). pose proof (window_opn b W) as N. pose proof W as ((L1 & L2) & K & _ & C & Lim). unfold s_move.
  destruct (s_out_of_range b i) eqn:Eo; [apply (far_spec b i W Li NW) in Eo; contradiction|]. unfold far, in_window in *.
  destruct (Nat.ltb_spec (s_first b) (s_last b)) as [_|]; [|lia]. destruct (Nat.ltb_spec i (s_first b)) as [Lb|Lb].
  - unfold s_move_back. set (k := s_first b - i) in *.
    destruct (close_down_ok k b (s_last b)) as (b1 & -> & S1 & F1 & La1 & N1 & C1); [lia|lia| |lia|].
    { intros j J J'. rewrite N. destruct (Nat.leb_spec (s_first b) j), (Nat.leb_spec j (s_last b)); try reflexivity; lia. }
    cbn [bind]. set (b2 := s_set_window b1 (s_first b1) (s_last b1 - k)). assert (S2 : same b b2) by (apply (same_trans _ _ _ S1), same_window).
    assert (C2 : s_count b2 = s_count b - k) by exact C1. assert (F2 : s_first b2 = s_first b) by exact F1.
    destruct (open_down_ok (s_first b2 + 1 - i) b2 (s_first b2)) as (b3 & E3 & S3 & F3 & La3); [apply (same_openable _ _ S2 O)|lia|rewrite (same_len _ _ S2); lia|rewrite (sm_limit _ _ S2); lia|].
    rewrite E3. cbn [bind]. rewrite (sm_limit _ _ S2), C2, F2. 
    destruct (Nat.leb_spec (s_count b - k + (s_first b + 1 - i)) (s_limit b)) as [Le|Le], (Nat.ltb_spec (s_count b) (s_limit b)) as [Lc|Lc]; try lia.
    + exists (s_set_window b3 i (s_last b3)). split; [destruct (i =? 0); reflexivity|]. split; [apply (same_trans _ _ _ S2), (same_trans _ _ _ S3), same_window|lia].
    + exists b3. split; [reflexivity|]. split; [apply (same_trans _ _ _ S2 S3)|lia].
  - unfold s_move_ahead. rewrite (u64_id (Z.of_nat i - Z.of_nat (s_last b))) by lia. rewrite u64_id by lia. set (k := i - s_last b) in *.
    replace (Z.to_nat (Z.of_nat (s_first b) + (Z.of_nat i - Z.of_nat (s_last b)) - Z.of_nat (s_first b))) with k by lia.
    replace (Z.to_nat (Z.of_nat (s_first b) + (Z.of_nat i - Z.of_nat (s_last b)))) with (s_first b + k) by lia.
    destruct (close_up_ok k b (s_first b)) as (b1 & -> & S1 & F1 & La1 & N1 & C1); [lia| |lia|].
    { intros j J. rewrite N. destruct (Nat.leb_spec (s_first b) j), (Nat.leb_spec j (s_last b)); try reflexivity; lia. }
    cbn [bind]. set (b2 := s_set_window b1 (s_first b + k) (s_last b1)). assert (S2 : same b b2) by (apply (same_trans _ _ _ S1), same_window).
    assert (C2 : s_count b2 = s_count b - k) by exact C1. assert (La2 : s_last b2 = s_last b) by exact La1.
    destruct (open_up_ok (i + 1 - s_last b2) b2 (s_last b2)) as (b3 & [(E3 & S3 & F3 & La3 & R3)|Bad]); [apply (same_openable _ _ S2 O)|rewrite (same_len _ _ S2); lia| |].
    2:{ rewrite (sm_limit _ _ S2) in Bad. lia. }
    rewrite E3. cbn [bind]. rewrite (sm_limit _ _ S2), C2, La2 in *.
    destruct (Nat.leb_spec (s_count b - k + (i + 1 - s_last b)) (s_limit b)) as [Le|Le], (Nat.ltb_spec (s_count b) (s_limit b)) as [Lc|Lc]; try lia.
    + exists (s_set_window b3 (s_first b3) i). destruct (Nat.eqb_spec i 0); [lia|]. split; [reflexivity|]. split; [apply (same_trans _ _ _ S2), (same_trans _ _ _ S3), same_window|].
      intros _ _. destruct (R3 Le) as (N3 & C3). cbn [s_set_window s_first s_last s_count]. split; [rewrite F3; reflexivity|]. split; [reflexivity|]. split; [lia|].
      change (opn b3 i = true). rewrite N3. destruct (Nat.leb_spec (s_last b) i), (Nat.ltb_spec i (s_last b + (i + 1 - s_last b))); try reflexivity; lia.
    + exists b3. split; [reflexivity|]. split; [apply (same_trans _ _ _ S2 S3)|lia].
Qed.

Lemma sound_openable b : sound_family (erase b) -> openable b.
Proof. intros (F & _) f I. rewrite Forall_forall in F. apply (F (sf_file f)). apply in_map, I. Qed.
Lemma locate_at : forall pre f post k pos, Forall good_file (pre ++ f :: post) -> (before pre <= pos < before pre + f_size f)%Z ->
  locate (pre ++ f :: post) k pos = Some (k + length pre, (pos - before pre)%Z).
Proof.
  induction pre as [|g pre IH]; intros f post k pos F P; cbn [app locate].
  - unfold before, zlen in *. cbn in *. destruct (Z.ltb_spec pos (f_size f)); [|lia]. f_equal. f_equal; lia.
  - cbn [app] in F. inversion F as [|? ? (G & _) F']; subst. assert (B : before (g :: pre) = (f_size g + before pre)%Z) by (unfold before; cbn; rewrite zlen_app, G; reflexivity).
    assert (P0 : (0 <= before pre)%Z) by (unfold before, zlen; lia). assert (Sg : (0 <= f_size g)%Z) by lia. rewrite B in *. destruct (Z.ltb_spec pos (f_size g)); [lia|].
    rewrite IH; [|exact F'|lia]. cbn [length]. f_equal. f_equal; lia.
Qed.

Definition s_pointer (i : nat) (w q : Z) : dptr := {| p_file := Some i; p_word := w; p_pos := q |}.

(** What a seek does once the file is found. *)
Lemma seek_step b w i : sound_family (erase b) -> (0 <= w)%Z -> lies_in b w i ->
  i < length (s_files b) /\
  exists q, seek (erase b) w = OK (erase b, s_pointer i w q) /\ stands_at (erase b) (s_pointer i w q) (w * s_ws b) /\
  s_seek b w = do ' (b', ok) <- (if opn b i then OK (b, true) else s_move b i);
               if ok then do f <- aget (s_files b') i; if sf_open f then OK (b', s_pointer i w q) else UB else OK (s_set_err b' (Some E_open_next), closed).
Proof.
  intros Sd W (pre & f & post & E & Lp & P). pose proof (sound_ws _ Sd) as Ws. cbn [erase d_ws] in Ws. destruct Sd as (F & T & Rest). pose proof (conj F (conj T Rest)) as Sd. fold (sound_family (erase b)) in Sd.
  assert (Ef : d_files (erase b) = map sf_file pre ++ sf_file f :: map sf_file post) by (cbn [erase d_files]; rewrite E, map_app; reflexivity).
  assert (Gf : good_file (sf_file f)) by (rewrite Ef in F; apply Forall_app in F as (_ & F); inversion F; assumption).
  pose proof (split_total _ _ _ _ Ef) as St. destruct Gf as (Gs & Gk). change (Z.of_nat (length (concat (map f_bytes (map sf_file pre))))) with (before (map sf_file pre)) in P.
  assert (P0 : (0 <= before (map sf_file pre))%Z) by (unfold before, zlen; lia).
  assert (U : u64 (w * s_ws b) = (w * s_ws b)%Z) by (apply u64_id; unfold zlen in St; lia).
  assert (Lo : locate (d_files (erase b)) 0 (w * s_ws b) = Some (i, (w * s_ws b - before (map sf_file pre))%Z)).
  { rewrite Ef. rewrite locate_at; [rewrite map_length, Lp; reflexivity|rewrite <- Ef; exact F|lia]. }
  set (q := (w * s_ws b - before (map sf_file pre))%Z) in *.
  assert (Q : s64 q = q). { unfold s64. unfold zlen in St. rewrite Z.mod_small by lia. destruct (Z.ltb_spec q (2 ^ 63)); lia. }
  assert (Fs : fseek_to (s64 q) = Some q). { rewrite Q. unfold fseek_to. unfold zlen in St. assert (L : ((0 <=? q) && (q <? 2 ^ 63))%Z%bool = true) by lia. rewrite L. reflexivity. }
  assert (Li : i < length (s_files b)) by (rewrite E, app_length; cbn; lia). split; [exact Li|]. exists q.
  assert (En : nth_error (s_files b) i = Some f) by (rewrite E, nth_error_app2, Lp, Nat.sub_diag by lia; reflexivity).
  split; [|split].
  - unfold seek. change (d_ws (erase b)) with (s_ws b). rewrite U, Lo.
    assert (G : aget (d_files (erase b)) i = OK (sf_file f)) by (apply aget_OK; cbn [erase d_files]; rewrite nth_error_map, En; reflexivity). rewrite G. cbn [bind]. rewrite Gk, Fs. reflexivity.
  - exists (map sf_file pre), (sf_file f), (map sf_file post). split; [exact Ef|]. cbn [s_pointer p_file p_pos]. rewrite map_length, Lp. split; [reflexivity|]. unfold before, zlen in *. lia.
  - unfold s_seek, s_locate. rewrite U. change (map sf_file (s_files b)) with (d_files (erase b)). rewrite Lo. rewrite (proj2 (aget_OK _ _ _) En). cbn [bind].
    assert (Eo : opn b i = sf_open f) by (unfold opn; rewrite En; reflexivity). rewrite Eo. rewrite Fs. reflexivity.
Qed.
Lemma lies_exists b w : sound_family (erase b) -> (0 <= w)%Z -> (w * s_ws b < total (erase b))%Z -> exists i, lies_in b w i.
Proof.
  intros Sd W P. pose proof (sound_ws _ Sd) as Ws. cbn [erase d_ws] in Ws. destruct Sd as (F & T & _).
  destruct (locate_spec (d_files (erase b)) 0 (w * s_ws b)) as (pre & f & post & q & A & _ & Cq & D); [exact F|unfold total, all_bytes in P; unfold zlen; lia|].
  cbn [erase d_files] in A. exists (length pre). unfold lies_in.
  assert (G : exists pre' f' post', s_files b = pre' ++ f' :: post' /\ map sf_file pre' = pre /\ sf_file f' = f).
  { clear -A. revert pre A. induction (s_files b) as [|x l IH]; intros pre A; [destruct pre; discriminate A|]. cbn [map] in A. destruct pre as [|y pre].
    - cbn [app] in A. injection A as A1 A2. exists [], x, l. auto.
    - cbn [app] in A. injection A as A1 A2. destruct (IH pre A2) as (p' & f' & q' & -> & <- & E). exists (x :: p'), f', q'. split; [reflexivity|]. split; [cbn; rewrite A1; reflexivity|exact E]. }
  destruct G as (pre' & f' & post' & E & <- & <-). exists pre', f', post'. split; [exact E|]. split; [rewrite map_length; reflexivity|]. unfold before, zlen in Cq. lia.
Qed.

Lemma opn_get b i : opn b i = true -> exists f, aget (s_files b) i = OK f /\ sf_open f = true.
Proof. unfold opn. destruct (nth_error (s_files b) i) as [f|] eqn:E; [|discriminate]. intros Of. exists f. split; [apply aget_OK, E|exact Of]. Qed.
Lemma win_open b i : window b -> in_window b i -> opn b i = true.
Proof. intros W (A & B). rewrite (window_opn b W). destruct (Nat.leb_spec (s_first b) i), (Nat.leb_spec i (s_last b)); try reflexivity; lia. Qed.
Lemma win_closed b i : window b -> ~ in_window b i -> opn b i = false.
Proof. intros W NW. unfold in_window in NW. rewrite (window_opn b W). destruct (Nat.leb_spec (s_first b) i), (Nat.leb_spec i (s_last b)); try reflexivity; lia. Qed.

Lemma seek_good b w i : window b -> sound_family (erase b) -> (0 <= w)%Z -> lies_in b w i -> in_window b i \/ far b i ->
  exists b' p, s_seek b w = OK (b', p) /\ seek (erase b) w = OK (erase b, p) /\ stands_at (erase b) p (w * s_ws b) /\ p_word p = w /\
    same b b' /\ window b' /\ p_file p = Some i /\ in_window b' i /\ s_count b' = s_count b /\ (in_window b i -> b' = b).
Proof.
  intros W Sd Wp Li R. destruct (seek_step b w i Sd Wp Li) as (Lt & q & E1 & St & ->).
  destruct (opn b i) eqn:Eo.
  - cbn [bind]. destruct (opn_get b i Eo) as (f & Ef & Of). rewrite Ef. cbn [bind]. rewrite Of. exists b, (s_pointer i w q). split; [reflexivity|]. split; [exact E1|]. split; [exact St|]. split; [reflexivity|].
    split; [apply same_refl|]. split; [exact W|]. split; [reflexivity|]. split; [|auto]. rewrite (window_opn b W) in Eo. unfold in_window.
    destruct (Nat.leb_spec (s_first b) i), (Nat.leb_spec i (s_last b)); try discriminate Eo; lia.
  - assert (NW : ~ in_window b i) by (intros I; rewrite (win_open b i W I) in Eo; discriminate). destruct R as [R|R]; [contradiction|].
    unfold s_move. rewrite (proj2 (far_spec b i W Lt NW) R). destruct (move_far_ok b i W (sound_openable b Sd) Lt R) as (b' & -> & S' & W' & I' & C'). cbn [bind].
    destruct (opn_get b' i (win_open b' i W' I')) as (f & Ef & Of). rewrite Ef. cbn [bind]. rewrite Of. exists b', (s_pointer i w q). split; [reflexivity|]. split; [exact E1|]. split; [exact St|]. split; [reflexivity|].
    split; [exact S'|]. split; [exact W'|]. split; [reflexivity|]. split; [exact I'|]. split; [exact C'|]. intros I. contradiction.
Qed.

(** ** Reading on *)
Definition moved (b b' : sbuf) : Prop :=
  window b' /\ map sf_file (s_files b') = map sf_file (s_files b) /\ s_ws b' = s_ws b /\ s_limit b' = s_limit b /\ s_count b' = s_count b /\ s_last b <= s_last b'.
Lemma moved_refl b : window b -> moved b b.
Proof. intros W. split; [exact W|]. repeat (split; [reflexivity|]). lia. Qed.
Lemma moved_trans a b c : moved a b -> moved b c -> moved a c.
Proof. intros (_ & A1 & A2 & A3 & A4 & A5) (W & B1 & B2 & B3 & B4 & B5). split; [exact W|]. split; [congruence|]. split; [congruence|]. split; [congruence|]. split; [congruence|lia]. Qed.
Lemma moved_err b b' e : moved b b' -> moved b (s_set_err b' e).
Proof. intros (W & R). split; [exact W|exact R]. Qed.

Lemma next_sim b p i : window b -> openable b -> p_file p = Some i -> in_window b i ->
  exists b', moved b b' /\ s_err b' = s_err b /\
  match next_file (erase b) p with
  | OK (tb, tp, true) => s_next_file b p = OK (b', tp, true) /\ tb = erase b /\ p_file tp = Some (i + 1) /\ in_window b' (i + 1)
  | OK (tb, tp, false) => s_next_file b p = OK (b', tp, false) /\ tb = erase b /\ b' = b
  | _ => False
  end.
Proof.
  intros W O Pf I. pose proof (window_opn b W) as N. pose proof W as ((L1 & L2) & K & _ & C & Lim). unfold in_window in I.
  unfold next_file, s_next_file, cur_file, s_cur_file, pointer_close, cur_file. rewrite Pf. cbn [erase d_files d_ws].
  destruct (nth_error (s_files b) i) as [f|] eqn:E; [|apply nth_error_None in E; lia]. rewrite (proj2 (aget_OK _ _ _) E).
  assert (E' : aget (map sf_file (s_files b)) i = OK (sf_file f)) by (apply aget_OK; rewrite nth_error_map, E; reflexivity). rewrite E'. cbn [bind]. rewrite map_length.
  destruct (Nat.eqb_spec (i + 1) (length (s_files b))) as [El|Nl]; [exists b; split; [apply moved_refl, W|]; split; [reflexivity|]; auto|].
  destruct (nth_error (s_files b) (i + 1)) as [g|] eqn:Eg; [|apply nth_error_None in Eg; lia]. rewrite (proj2 (aget_OK _ _ _) Eg).
  assert (Eg' : aget (map sf_file (s_files b)) (i + 1) = OK (sf_file g)) by (apply aget_OK; rewrite nth_error_map, Eg; reflexivity). rewrite Eg'. cbn [bind].
  rewrite (O g (nth_error_In _ _ Eg)). assert (Og : opn b (i + 1) = sf_open g) by (unfold opn; rewrite Eg; reflexivity). rewrite N in Og. rewrite <- Og.
  destruct (Nat.leb_spec (s_first b) (i + 1)) as [_|]; [|lia]. cbn [andb]. destruct (Nat.leb_spec (i + 1) (s_last b)) as [Le|Gt].
  - exists b. split; [apply moved_refl, W|]. split; [reflexivity|]. cbn [bind]. split; [reflexivity|]. split; [reflexivity|]. split; [reflexivity|]. unfold in_window. lia.
  - assert (Ei : i = s_last b) by lia. destruct (fclose_ok b (s_first b) ltac:(lia)) as (b1 & -> & S1 & F1 & La1 & N1 & C1). cbn [bind].
    assert (Of : opn b (s_first b) = true) by (apply (win_open b); [exact W|unfold in_window; lia]). rewrite Of in C1.
    set (b2 := s_set_window b1 (s_first b1 + 1) (s_last b1 + 1)). assert (S2 : same b b2) by (apply (same_trans _ _ _ S1), same_window).
    destruct (fopen_ok b2 (i + 1)) as (b3 & -> & S3 & F3 & La3 & N3 & C3); [apply (same_openable _ _ S2 O)|rewrite (same_len _ _ S2); lia|].
    assert (C2 : s_count b2 = s_count b - 1) by exact C1. rewrite C2, (sm_limit _ _ S2) in *. destruct (Nat.ltb_spec (s_count b - 1) (s_limit b)) as [_|]; [|lia]. cbn [bind].
    pose proof (same_trans _ _ _ S2 S3) as S4. assert (F4 : s_first b3 = s_first b + 1) by (rewrite F3; cbn; rewrite F1; reflexivity). assert (La4 : s_last b3 = s_last b + 1) by (rewrite La3; cbn; rewrite La1; reflexivity).
    exists b3. assert (W3 : window b3).
    { apply opn_window; [rewrite F4, La4, (same_len _ _ S4); lia|rewrite (same_len _ _ S4); lia| |lia|rewrite (sm_limit _ _ S4); lia].
      intros j. rewrite N3. change (opn b2 j) with (opn b1 j). rewrite N1, N, F4, La4.
      destruct (Nat.eqb_spec j (i + 1)), (Nat.eqb_spec j (s_first b)), (Nat.leb_spec (s_first b) j), (Nat.leb_spec j (s_last b)), (Nat.leb_spec (s_first b + 1) j), (Nat.leb_spec j (s_last b + 1)); cbn; try reflexivity; lia. }
    split; [split; [exact W3|]; split; [apply S4|]; split; [apply S4|]; split; [apply S4|]; split; [lia|lia]|]. split; [apply S4|].
    split; [reflexivity|]. split; [reflexivity|]. split; [reflexivity|]. unfold in_window. lia.
Qed.

Lemma moved_openable b b' : moved b b' -> openable b -> openable b'.
Proof.
  intros (_ & E & _) O f I. apply (in_map sf_file) in I. rewrite E in I. apply in_map_iff in I. destruct I as (g & Eg & Ig). rewrite <- Eg. apply O, Ig.
Qed.
Lemma erase_err b e : erase (s_set_err b (Some e)) = set_err (erase b) e.
Proof. reflexivity. Qed.
Lemma erase_moved b b' : moved b b' -> s_err b' = s_err b -> erase b' = erase b.
Proof. intros (_ & E1 & E2 & _) E3. unfold erase. rewrite E1, E2, E3. reflexivity. Qed.

Lemma loop_sim : forall fuel b p num acc i, window b -> openable b -> p_file p = Some i -> in_window b i ->
  match read_loop fuel (erase b) p num acc with
  | OK (tb, tp, data) => exists b', s_read_loop fuel b p num acc = OK (b', tp, data) /\ moved b b' /\ erase b' = tb /\
      (s_err b = None -> s_err b' = None -> exists j, p_file tp = Some j /\ in_window b' j)
  | UB => True
  | OOF => s_read_loop fuel b p num acc = OOF
  end.
Proof.
  induction fuel as [|fuel IH]; intros b p num acc i W O Pf I; [reflexivity|]. cbn [read_loop s_read_loop].
  destruct (Z.of_nat (length acc) <? num)%Z; [|exists b; split; [reflexivity|]; split; [apply moved_refl, W|]; split; [reflexivity|]; intros _ _; exists i; auto].
  unfold cur_file, s_cur_file. rewrite Pf. cbn [erase d_files d_ws].
  destruct (nth_error (s_files b) i) as [f|] eqn:E; [|destruct W as ((? & ?) & _); unfold in_window in I; apply nth_error_None in E; lia].
  rewrite (proj2 (aget_OK _ _ _) E). assert (E' : aget (map sf_file (s_files b)) i = OK (sf_file f)) by (apply aget_OK; rewrite nth_error_map, E; reflexivity). rewrite E'. cbn [bind].
  assert (Of : sf_open f = true) by (pose proof (win_open b i W I) as H; unfold opn in H; rewrite E in H; exact H). rewrite Of. cbn [orb].
  destruct (num - Z.of_nat (length acc) <=? u64 (f_size (sf_file f) - p_pos p))%Z.
  - destruct (fread_items (f_bytes (sf_file f)) (p_pos p) 1 (num - Z.of_nat (length acc))) as [d c]. destruct (c =? num - Z.of_nat (length acc))%Z.
    + exists b. split; [reflexivity|]. split; [apply moved_refl, W|]. split; [reflexivity|]. intros _ _. exists i. auto.
    + exists (s_set_err b (Some E_read)). split; [reflexivity|]. split; [apply moved_err, moved_refl, W|]. split; [reflexivity|]. discriminate.
  - destruct (if (u64 (f_size (sf_file f) - p_pos p) =? 0)%Z then ([], 0%Z) else fread_items (f_bytes (sf_file f)) (p_pos p) 1 (u64 (f_size (sf_file f) - p_pos p))) as [d c].
    destruct (c =? u64 (f_size (sf_file f) - p_pos p))%Z.
    2:{ exists (s_set_err b (Some E_read)). split; [reflexivity|]. split; [apply moved_err, moved_refl, W|]. split; [reflexivity|]. discriminate. }
    cbn [p_pos]. set (p' := {| p_file := Some i; p_word := _; p_pos := _ |}).
    destruct (next_sim b p' i W O eq_refl I) as (b' & M & Ee & NS). change {| d_files := map sf_file (s_files b); d_ws := s_ws b; d_err := s_err b |} with (erase b).
    destruct (next_file (erase b) p') as [[[tb tp] ok]| |]; [|destruct NS|destruct NS]. destruct ok.
    + destruct NS as (-> & -> & Pj & Ij). cbn [bind]. pose proof (erase_moved _ _ M Ee) as Er. rewrite <- Er.
      specialize (IH b' tp num (acc ++ d) (i + 1) (proj1 M) (moved_openable _ _ M O) Pj Ij).
      destruct (read_loop fuel (erase b') tp num (acc ++ d)) as [[[tb2 tp2] data2]| |]; [|exact IH|exact IH].
      destruct IH as (b2 & E2 & M2 & Er2 & J2). exists b2. split; [exact E2|]. split; [apply (moved_trans _ _ _ M M2)|]. split; [exact Er2|]. rewrite <- Ee. exact J2.
    + destruct NS as (-> & -> & ->). cbn [bind erase d_err]. destruct (s_err b) as [e|].
      * exists (s_set_err b (Some E_switch)). split; [reflexivity|]. split; [apply moved_err, moved_refl, W|]. split; [reflexivity|]. discriminate.
      * exists (s_set_err b (Some E_too_much)). split; [reflexivity|]. split; [apply moved_err, moved_refl, W|]. split; [reflexivity|]. discriminate.
Qed.
Lemma read_sim b p n i : window b -> openable b -> p_file p = Some i -> in_window b i ->
  match read_words (erase b) p n with
  | OK (tb, tp, data) => exists b', s_read_words b p n = OK (b', tp, data) /\ moved b b' /\ erase b' = tb /\
      (s_err b = None -> s_err b' = None -> exists j, p_file tp = Some j /\ in_window b' j)
  | UB => True
  | OOF => s_read_words b p n = OOF
  end.
Proof.
  intros W O Pf I. unfold read_words, s_read_words.
  pose proof (loop_sim (S (length (s_files b))) b p (u64 (n * s_ws b)) [] i W O Pf I) as LS.
  unfold cur_file, s_cur_file. rewrite Pf. cbn [erase d_files d_ws] in *. rewrite map_length.
  destruct (nth_error (s_files b) i) as [f|] eqn:E; [|destruct W as ((? & ?) & _); unfold in_window in I; apply nth_error_None in E; lia].
  rewrite (proj2 (aget_OK _ _ _) E). assert (E' : aget (map sf_file (s_files b)) i = OK (sf_file f)) by (apply aget_OK; rewrite nth_error_map, E; reflexivity). rewrite E'. cbn [bind].
  assert (Of : sf_open f = true) by (pose proof (win_open b i W I) as H; unfold opn in H; rewrite E in H; exact H). rewrite Of.
  destruct (u64 (n * s_ws b) <=? u64 (f_size (sf_file f) - p_pos p))%Z; [|exact LS].
  destruct (fread_items (f_bytes (sf_file f)) (p_pos p) (s_ws b) n) as [d c]. destruct (c =? n)%Z.
  - exists b. split; [reflexivity|]. split; [apply moved_refl, W|]. split; [reflexivity|]. intros _ _. exists i. auto.
  - exists (s_set_err b (Some E_read)). split; [reflexivity|]. split; [apply moved_err, moved_refl, W|]. split; [reflexivity|]. discriminate.
Qed.
Lemma reads_sim : forall counts b p i, window b -> openable b -> s_err b = None -> p_file p = Some i -> in_window b i ->
  match reads (erase b) p counts with
  | OK (tb, tp, data) => exists b', s_reads b p counts = OK (b', tp, data) /\ moved b b' /\ erase b' = tb
  | UB => True
  | OOF => s_reads b p counts = OOF
  end.
Proof.
  induction counts as [|n counts IH]; intros b p i W O Er Pf I; cbn [reads s_reads].
  - exists b. split; [reflexivity|]. split; [apply moved_refl, W|reflexivity].
  - pose proof (read_sim b p n i W O Pf I) as R. destruct (read_words (erase b) p n) as [[[tb tp] d]| |]; [|exact Logic.I|rewrite R; reflexivity].
    destruct R as (b' & -> & M & <- & J). cbn [bind erase d_err]. destruct (s_err b') as [e|] eqn:Ee; [exists b'; auto|].
    destruct (J Er eq_refl) as (j & Pj & Ij). specialize (IH b' tp j (proj1 M) (moved_openable _ _ M O) Ee Pj Ij).
    destruct (reads (erase b') tp counts) as [[[tb2 tp2] ds]| |]; [|exact Logic.I|rewrite IH; reflexivity]. destruct IH as (b2 & -> & M2 & Er2). cbn [bind]. exists b2. split; [reflexivity|]. split; [apply (moved_trans _ _ _ M M2)|exact Er2].
Qed.

(** ** Opening *)
Lemma window_eq b b' : window b -> window b' -> map sf_file (s_files b') = map sf_file (s_files b) -> s_first b' = s_first b -> s_last b' = s_last b ->
  s_ws b' = s_ws b -> s_err b' = s_err b -> s_limit b' = s_limit b -> s_count b' = s_count b -> b' = b.
Proof.
  intros (_ & _ & W & _) (_ & _ & W' & _) M F La Ws Er Lm C.
  assert (E : s_files b' = s_files b).
  { apply nth_error_ext. intros i. assert (N : nth_error (map sf_file (s_files b')) i = nth_error (map sf_file (s_files b)) i) by (rewrite M; reflexivity). rewrite !nth_error_map in N.
    specialize (W i). specialize (W' i). destruct (nth_error (s_files b) i) as [[f o]|], (nth_error (s_files b') i) as [[f' o']|]; try discriminate N; [|reflexivity].
    injection N as ->. f_equal. specialize (W _ eq_refl). specialize (W' _ eq_refl). cbn [sf_open] in *. rewrite F, La in W'. congruence. }
  destruct b, b'; cbn in *; congruence.
Qed.
Lemma read_here b p i f n : window b -> p_file p = Some i -> in_window b i -> nth_error (s_files b) i = Some f ->
  (u64 (n * s_ws b) <=? u64 (f_size (sf_file f) - p_pos p))%Z = true ->
  forall b' p' d, s_read_words b p n = OK (b', p', d) -> s_err b' = None -> b' = b.
Proof.
  intros W Pf I E L b' p' d. unfold s_read_words, s_cur_file. rewrite Pf, (proj2 (aget_OK _ _ _) E). cbn [bind]. rewrite L.
  assert (Of : sf_open f = true) by (pose proof (win_open b i W I) as H; unfold opn in H; rewrite E in H; exact H). rewrite Of.
  destruct (fread_items (f_bytes (sf_file f)) (p_pos p) (s_ws b) n) as [x c]. destruct (c =? n)%Z; intros Q Er; injection Q as <- _ _; [reflexivity|discriminate Er].
Qed.
Lemma moved_all b b' : moved b b' -> window b -> s_first b = 0 -> s_last b + 1 = length (s_files b) -> s_first b' = s_first b /\ s_last b' = s_last b.
Proof.
  intros (((A1 & A2) & _ & _ & C' & _) & M & _ & _ & C & L) ((B1 & B2) & _ & _ & Cb & _) F La.
  apply (f_equal (@length _)) in M. rewrite !map_length in M. lia.
Qed.
Lemma probe_stay b w d : window b -> sound_family (erase b) -> s_err b = None -> s_first b = 0 -> (0 <= w)%Z -> ((w + 1) * s_ws b <= total (erase b))%Z ->
  s_last b + 1 = length (s_files b) \/ (exists f, nth_error (s_files b) 0 = Some f /\ ((w + 1) * s_ws b <= f_size (sf_file f))%Z) ->
  s_probe b w d = OK (b, word_at (erase b) (s_ws b) w).
Proof.
  intros W Sd Er F0 Wp L A. pose proof (sound_ws _ Sd) as Ws. cbn [erase d_ws] in Ws. pose proof W as ((L1 & L2) & _).
  assert (T : (total (erase b) < 2 ^ 63)%Z) by apply Sd.
  destruct (lies_exists b w Sd Wp) as (i & Li); [lia|].
  assert (I : in_window b i).
  { unfold in_window. destruct A as [A|(f & E & A)]; destruct Li as (pre & g & post & Ef & Lp & P).
    - rewrite Ef, app_length in A, L2. cbn in A, L2. lia.
    - destruct pre as [|x pre]; [cbn in Lp; lia|]. rewrite Ef in E. cbn in E. injection E as ->. exfalso.
      pose proof (good_in (erase b) [] (sf_file f) (map sf_file (pre ++ g :: post)) Sd) as (G & _); [cbn [erase d_files]; rewrite Ef; reflexivity|].
      cbn [map concat] in P. rewrite app_length in P. lia. }
  destruct (seek_good b w i W Sd Wp Li (or_introl I)) as (b1 & p & E1 & E2 & St & Pw & _ & _ & Pf & _ & _ & Eb). specialize (Eb I). subst b1.
  unfold s_probe, s_read_words_at. rewrite E1. cbn [bind]. rewrite Er.
  destruct (read_in (erase b) p (w * s_ws b) 1 w Sd St) as (p' & w' & R & _); [lia|cbn [erase d_ws]; lia|rewrite Pw, u64_id by nia; reflexivity|].
  pose proof (read_sim b p 1 i W (sound_openable b Sd) Pf I) as Sim. rewrite R in Sim. destruct Sim as (b2 & E3 & M & Ee & _). rewrite E3. cbn [bind].
  assert (Er2 : s_err b2 = None) by (apply (f_equal d_err) in Ee; cbn [erase d_err] in Ee; congruence). rewrite Er2.
  assert (Q : b2 = b).
  { destruct A as [A|(f & E & A)].
    - pose proof (moved_all b b2 M W F0 A) as (X & Y). destruct M as (W2 & M1 & M2 & M3 & M4 & _). apply window_eq; auto. congruence.
    - destruct Li as (pre & g & post & Ef & Lp & P). destruct pre as [|x pre].
      + cbn in Lp. subst i. apply (read_here b p 0 f 1 W Pf I E) with p' (bytes_from (erase b) (w * s_ws b) (1 * s_ws b)); [|exact E3|exact Er2].
        destruct St as (pr & h & po & D1 & D2 & D3 & D4). rewrite Pf in D2. injection D2 as D2. destruct pr as [|y pr]; [|discriminate D2].
        cbn [erase d_files map app] in D1. rewrite Ef in D1, E. cbn in D1, E. injection D1 as D1 _. injection E as ->. cbn in D4. rewrite <- D1 in D3. rewrite !u64_id by (cbn [erase d_ws] in *; pose proof (good_in (erase b) [] (sf_file f) (map sf_file post) Sd) as (G & _); [cbn [erase d_files]; rewrite Ef; reflexivity|]; assert (f_size (sf_file f) <= total (erase b))%Z by (rewrite G; unfold total, all_bytes; cbn [erase d_files]; rewrite Ef; cbn; rewrite app_length; lia); lia).
        lia.
      + exfalso. rewrite Ef in E. cbn in E. injection E as ->.
        pose proof (good_in (erase b) [] (sf_file f) (map sf_file (pre ++ g :: post)) Sd) as (G & _); [cbn [erase d_files]; rewrite Ef; reflexivity|].
        cbn [map concat] in P. rewrite app_length in P. lia. }
  rewrite Q. unfold word_at. cbn [erase d_ws]. rewrite Z.mul_1_l. reflexivity.
Qed.

Lemma open_files_spec limit : forall files i count last, Forall good_file files -> count <= limit ->
  exists fs l, s_open_files limit i files count last = Some (fs, Nat.min limit (count + length files), l) /\ map sf_file fs = files /\
    (forall j f, nth_error fs j = Some f -> sf_open f = (count + j <? limit)) /\
    (count < limit -> files <> [] -> l = Some (i + (Nat.min limit (count + length files) - count) - 1)) /\ (count = limit -> l = last) /\ (files = [] -> l = last).
Proof.
  induction files as [|f r IH]; intros i count last F C; cbn [s_open_files].
  - exists [], last. cbn [length]. rewrite Nat.add_0_r, Nat.min_r by lia. split; [reflexivity|]. split; [reflexivity|]. split; [intros [|j] f Q; discriminate Q|]. split; [congruence|]. auto.
  - inversion F as [|? ? (Gs & Gk) F']; subst. destruct (Nat.ltb_spec count limit) as [Lt|Ge].
    + rewrite Gk. destruct (IH (i + 1) (count + 1) (Some i) F' ltac:(lia)) as (fs & l & -> & M & O & La & Le & Ln).
      exists ({| sf_file := f; sf_open := true |} :: fs), l. cbn [length]. split; [f_equal; f_equal; f_equal; lia|]. split; [cbn; rewrite M; reflexivity|]. split.
      { intros [|j] g Q; cbn in Q; [injection Q as <-; cbn [sf_open]|rewrite (O j g Q)]; [destruct (Nat.ltb_spec (count + 0) limit)|replace (count + 1 + j) with (count + Datatypes.S j) by lia]; try reflexivity; lia. }
      split; [|split; [lia|discriminate]]. intros _ _. destruct (Nat.eq_dec (count + 1) limit) as [El|Nl]; [rewrite (Le El); f_equal; lia|].
      destruct r as [|g r]; [rewrite (Ln eq_refl); cbn [length]; f_equal; lia|]. rewrite La; [f_equal; cbn [length]; lia|lia|discriminate].
    + destruct (IH (i + 1) count last F' C) as (fs & l & -> & M & O & La & Le & Ln). exists ({| sf_file := f; sf_open := false |} :: fs), l. cbn [length].
      split; [f_equal; f_equal; f_equal; lia|]. split; [cbn; rewrite M; reflexivity|]. split.
      { intros [|j] g Q; cbn in Q; [injection Q as <-; cbn [sf_open]; destruct (Nat.ltb_spec (count + 0) limit)|rewrite (O j g Q); destruct (Nat.ltb_spec (count + j) limit), (Nat.ltb_spec (count + Datatypes.S j) limit)]; try reflexivity; lia. }
      split; [lia|]. split; [exact Le|discriminate].
Qed.

Lemma probe_all_stay b : window b -> sound_family (erase b) -> s_err b = None -> s_first b = 0 -> (23 * s_ws b <= total (erase b))%Z ->
  s_last b + 1 = length (s_files b) \/ (exists f, nth_error (s_files b) 0 = Some f /\ (23 * s_ws b <= f_size (sf_file f))%Z) ->
  s_probe_all b = OK (b, verdict (erase b) (s_ws b)).
Proof.
  intros W Sd Er F0 L A. pose proof (sound_ws _ Sd) as Ws. cbn [erase d_ws] in Ws. unfold s_probe_all.
  assert (P : forall w d, (0 <= w <= 22)%Z -> s_probe b w d = OK (b, word_at (erase b) (s_ws b) w)).
  { intros w d Hw. apply probe_stay; auto; try nia. destruct A as [A|(f & E & A)]; [left; exact A|right; exists f; split; [exact E|nia]]. }
  rewrite (P 15%Z 0%Z) by lia. cbn [bind]. rewrite (P 17%Z 0%Z) by lia. cbn [bind]. rewrite (P 11%Z 0%Z) by lia. cbn [bind]. rewrite (P 19%Z 999%Z) by lia. cbn [bind].
  rewrite (P 22%Z 999%Z) by lia. reflexivity.
Qed.

Lemma s_open_ok limit fs root files : family MAX_FILES fs root 0 = files -> sound_family (start_buffer files) -> (184 <= total (start_buffer files))%Z -> 1 <= limit ->
  length files <= limit \/ (exists f, nth_error files 0 = Some f /\ (184 <= f_size f)%Z) -> length files <= 1000 ->
  exists b, s_open_buffer limit fs root = OK b /\ open fs root = OK (erase b) /\ window b /\ s_first b = 0 /\ s_last b = Nat.min limit (length files) - 1 /\ s_limit b = limit.
Proof.
  intros E Sd T Lm A K. pose proof (open_ok fs root files E Sd T) as O. unfold s_open_buffer. rewrite E. cbv zeta.
  assert (Ne : files <> []) by (intros ->; unfold total, all_bytes in T; cbn in T; lia).
  destruct (open_files_spec limit files 0 0 None (proj1 Sd) ltac:(lia)) as (sfs & l & -> & M & Op & La & _). rewrite (La ltac:(lia) Ne).
  assert (Ln : length files <> 0) by (destruct files; [congruence|discriminate]). destruct (Nat.eqb_spec (length files) 0); [lia|].
  assert (Ls : length sfs = length files) by (rewrite <- M, map_length; reflexivity).
  set (last := 0 + (Nat.min limit (0 + length files) - 0) - 1). set (c := Nat.min limit (0 + length files)).
  set (B := fun w e => {| s_files := sfs; s_first := 0; s_last := last; s_ws := w; s_err := e; s_count := c; s_limit := limit |}).
  assert (W : forall w e, window (B w e)).
  { intros w e. unfold window. cbn [B s_files s_first s_last s_count s_limit]. split; [unfold last; lia|]. split; [lia|]. split; [|unfold last, c; lia].
    intros i f Q. rewrite (Op i f Q). assert (i < length sfs) by (apply nth_error_Some; rewrite Q; discriminate).
    destruct (Nat.ltb_spec (0 + i) limit), (Nat.leb_spec i last); try reflexivity; unfold last in *; lia. }
  assert (Eb : forall w, erase (B w None) = set_ws (start_buffer files) w) by (intros w; unfold erase; cbn [B s_files s_ws s_err]; rewrite M; reflexivity).
  assert (A' : forall w, (w = 4 \/ w = 8)%Z -> s_last (B w None) + 1 = length (s_files (B w None)) \/ (exists f, nth_error (s_files (B w None)) 0 = Some f /\ (23 * s_ws (B w None) <= f_size (sf_file f))%Z)).
  { intros w Hw. cbn [B s_last s_files s_ws]. destruct A as [A|(f & Q & A)]; [left; unfold last; lia|right]. rewrite <- M, nth_error_map in Q. destruct (nth_error sfs 0) as [g|]; [|discriminate Q]. injection Q as <-. exists g. split; [reflexivity|lia]. }
  change (s_set_ws _ 4) with (B 4%Z None). rewrite (probe_all_stay (B 4%Z None)); [|apply W|rewrite Eb; apply with_ws; auto|reflexivity|reflexivity|rewrite Eb; cbn [B s_ws]; change (total (set_ws (start_buffer files) 4)) with (total (start_buffer files)); lia|apply A'; auto].
  cbn [bind]. change (s_set_ws _ 8) with (B 8%Z None). rewrite (probe_all_stay (B 8%Z None)); [|apply W|rewrite Eb; apply with_ws; auto|reflexivity|reflexivity|rewrite Eb; cbn [B s_ws]; change (total (set_ws (start_buffer files) 8)) with (total (start_buffer files)); lia|apply A'; auto].
  cbn [bind]. rewrite !Eb. change (s_ws (B 4%Z None)) with 4%Z. change (s_ws (B 8%Z None)) with 8%Z.
  change (verdict (set_ws (start_buffer files) 4) 4) with (verdict (start_buffer files) 4). change (verdict (set_ws (start_buffer files) 8) 8) with (verdict (start_buffer files) 8).
  cbv zeta in O. destruct ((negb (verdict (start_buffer files) 4) && negb (verdict (start_buffer files) 8)) || (verdict (start_buffer files) 4 && verdict (start_buffer files) 8))%bool.
  - exists (B 8%Z (Some E_broken)). split; [reflexivity|]. split; [rewrite O; unfold erase; cbn [B s_files s_ws s_err]; rewrite M; reflexivity|]. split; [apply W|]. split; [reflexivity|]. split; [cbn [B s_last]; unfold last; lia|reflexivity].
  - exists (B (if verdict (start_buffer files) 8 then 8 else 4)%Z None). split; [reflexivity|]. split; [rewrite O, Eb; reflexivity|]. split; [apply W|]. split; [reflexivity|]. split; [cbn [B s_last]; unfold last; lia|reflexivity].
Qed.

(** ** Families without a complete control block *)
Lemma probe_any b w d : window b -> sound_family (erase b) -> s_err b = None -> s_first b = 0 -> s_last b + 1 = length (s_files b) -> (0 <= w < 1000)%Z ->
  exists v, s_probe b w d = OK (b, v) /\ ((total (erase b) < (w + 1) * s_ws b)%Z -> v = d).
Proof.
  intros W Sd Er F0 La Wp. pose proof (sound_ws _ Sd) as Ws. cbn [erase d_ws] in Ws. assert (T : (total (erase b) < 2 ^ 63)%Z) by apply Sd.
  assert (Id : s_set_err (s_set_err b None) None = b /\ s_set_err b None = b) by (destruct b; cbn in *; subst; auto). destruct Id as (_ & Id).
  destruct (Z.le_gt_cases ((w + 1) * s_ws b) (total (erase b))) as [In|Out].
  { eexists. split; [apply probe_stay; auto; lia|]. lia. }
  exists d. split; [|auto]. unfold s_probe, s_read_words_at.
  destruct (Z.lt_ge_cases (w * s_ws b) (total (erase b))) as [Lt|Ge].
  - destruct (lies_exists b w Sd ltac:(lia) Lt) as (i & Li).
    assert (I : in_window b i). { destruct Li as (pre & g & post & Ef & Lp & _). unfold in_window. rewrite Ef, app_length in La. cbn in La. lia. }
    destruct (seek_good b w i W Sd ltac:(lia) Li (or_introl I)) as (b1 & p & E1 & E2 & St & Pw & _ & _ & Pf & _ & _ & Eb). specialize (Eb I). subst b1.
    rewrite E1. cbn [bind]. rewrite Er.
    pose proof (read_out (erase b) p (w * s_ws b) 1 Sd Er St ltac:(lia)) as R. cbn [erase d_ws] in R. specialize (R ltac:(cbn [erase] in Out; lia) ltac:(lia)).
    pose proof (read_sim b p 1 i W (sound_openable b Sd) Pf I) as Sim. cbn [erase] in Sim. rewrite R in Sim. destruct Sim as (b2 & E3 & M & Ee & _). rewrite E3. cbn [bind].
    assert (Er2 : s_err b2 = Some E_too_much) by (apply (f_equal d_err) in Ee; exact Ee). rewrite Er2. f_equal. f_equal.
    pose proof (moved_all b b2 M W F0 La) as (X & Y). destruct M as (W2 & M1 & M2 & M3 & M4 & _). 
    apply (window_eq b (s_set_err b2 None)); auto.
  - assert (Sk : s_seek b w = OK (s_set_err b (Some E_oob), closed)).
    { unfold s_seek, s_locate. rewrite u64_id by nia. rewrite locate_none; [reflexivity|apply Sd|unfold total, all_bytes in Ge; unfold zlen; cbn [erase d_files] in Ge; lia]. }
    rewrite Sk. cbn [bind s_set_err s_err]. f_equal. f_equal. exact Id.
Qed.
Lemma probe_all_any b : window b -> sound_family (erase b) -> s_err b = None -> s_first b = 0 -> s_last b + 1 = length (s_files b) ->
  exists v, s_probe_all b = OK (b, v) /\ ((total (erase b) < 23 * s_ws b)%Z -> v = false).
Proof.
  intros W Sd Er F0 La. unfold s_probe_all.
  destruct (probe_any b 15 0 W Sd Er F0 La ltac:(lia)) as (v1 & -> & _). cbn [bind]. destruct (probe_any b 17 0 W Sd Er F0 La ltac:(lia)) as (v2 & -> & _). cbn [bind].
  destruct (probe_any b 11 0 W Sd Er F0 La ltac:(lia)) as (v3 & -> & _). cbn [bind]. destruct (probe_any b 19 999 W Sd Er F0 La ltac:(lia)) as (v4 & -> & _). cbn [bind].
  destruct (probe_any b 22 999 W Sd Er F0 La ltac:(lia)) as (v5 & -> & H). cbn [bind]. eexists. split; [reflexivity|]. intros L. rewrite (H L). unfold makes_sense. apply andb_false_r.
Qed.
Lemma s_open_short limit fs root files : family MAX_FILES fs root 0 = files -> files <> [] -> sound_family (start_buffer files) -> (total (start_buffer files) < 184)%Z ->
  length files <= limit -> length files <= 1000 ->
  exists b, s_open_buffer limit fs root = OK b /\ window b /\ d_files (erase b) = files /\ s_limit b = limit /\
    (s_err b = None <-> (92 <= total (start_buffer files))%Z /\ plausible (start_buffer files) 4) /\ (s_err b = None -> s_ws b = 4%Z).
Proof.
  intros E Ne Sd T Lm K. unfold s_open_buffer. rewrite E. cbv zeta.
  assert (Ln : length files <> 0) by (destruct files; [congruence|discriminate]).
  destruct (open_files_spec limit files 0 0 None (proj1 Sd) ltac:(lia)) as (sfs & l & -> & M & Op & La & _). rewrite (La ltac:(lia) Ne).
  destruct (Nat.eqb_spec (length files) 0); [lia|].
  assert (Ls : length sfs = length files) by (rewrite <- M, map_length; reflexivity).
  set (last := 0 + (Nat.min limit (0 + length files) - 0) - 1). set (c := Nat.min limit (0 + length files)).
  set (B := fun w e => {| s_files := sfs; s_first := 0; s_last := last; s_ws := w; s_err := e; s_count := c; s_limit := limit |}).
  assert (W : forall w e, window (B w e)).
  { intros w e. unfold window. cbn [B s_files s_first s_last s_count s_limit]. split; [unfold last; lia|]. split; [lia|]. split; [|unfold last, c; lia].
    intros i f Q. rewrite (Op i f Q). assert (i < length sfs) by (apply nth_error_Some; rewrite Q; discriminate).
    destruct (Nat.ltb_spec (0 + i) limit), (Nat.leb_spec i last); try reflexivity; unfold last in *; lia. }
  assert (Eb : forall w, erase (B w None) = set_ws (start_buffer files) w) by (intros w; unfold erase; cbn [B s_files s_ws s_err]; rewrite M; reflexivity).
  assert (A' : forall w, s_last (B w None) + 1 = length (s_files (B w None))) by (intros w; cbn [B s_last s_files]; unfold last; lia).
  assert (Tt : forall w, total (set_ws (start_buffer files) w) = total (start_buffer files)) by reflexivity.
  change (s_set_ws _ 4) with (B 4%Z None).
  destruct (probe_all_any (B 4%Z None)) as (v4 & E4 & F4); [apply W|rewrite Eb; apply with_ws; auto|reflexivity|reflexivity|apply A'|].
  destruct (probe_all_any (B 8%Z None)) as (v8 & E8 & F8); [apply W|rewrite Eb; apply with_ws; auto|reflexivity|reflexivity|apply A'|].
  rewrite E4. cbn [bind]. change (s_set_ws _ 8) with (B 8%Z None). rewrite E8. cbn [bind]. rewrite Eb, Tt in F8. specialize (F8 ltac:(cbn [B s_ws]; lia)). subst v8. cbn [negb]. rewrite !andb_true_r, andb_false_r, orb_false_r.
  assert (Df : forall w e, d_files (erase (B w e)) = files) by (intros w e; exact M).
  assert (V : v4 = true <-> (92 <= total (start_buffer files))%Z /\ plausible (start_buffer files) 4).
  { destruct (Z.le_gt_cases 92 (total (start_buffer files))) as [G|G].
    - rewrite (probe_all_stay (B 4%Z None)) in E4; [|apply W|rewrite Eb; apply with_ws; auto|reflexivity|reflexivity|rewrite Eb, Tt; cbn [B s_ws]; lia|left; apply A'].
      injection E4 as <-. rewrite Eb. change (s_ws (B 4%Z None)) with 4%Z. pose proof (makes_sense_spec (start_buffer files) 4) as P. fold (verdict (start_buffer files) 4) in P.
      change (verdict (set_ws (start_buffer files) 4) 4) with (verdict (start_buffer files) 4). tauto.
    - rewrite Eb, Tt in F4. specialize (F4 ltac:(cbn [B s_ws]; lia)). subst v4. split; [discriminate|intros (X & _); lia]. }
  destruct v4; cbn [negb].
  - exists (B 4%Z None). split; [reflexivity|]. split; [apply W|]. split; [apply Df|]. split; [reflexivity|]. split; [|reflexivity]. cbn [B s_err]. tauto.
  - exists (B 8%Z (Some E_broken)). split; [reflexivity|]. split; [apply W|]. split; [apply Df|]. split; [reflexivity|]. cbn [B s_err]. split; [|discriminate]. split; [discriminate|]. intros X. apply V in X. discriminate.
Qed.
