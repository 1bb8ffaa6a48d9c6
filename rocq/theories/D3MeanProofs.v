(** * Proofs about the mean values of shells *)
From Verif Require Import CBase CBaseFacts BinModel D3BufModel D3Model D3ReadModel D3ElemModel D3ElemSpec.
Open Scope Z_scope.

Section Mean.
Variables (fadd fdiv : Z -> Z -> Z) (of_int : Z -> Z).
Lemma add_all_eq : forall n a c, length a = n -> length c = n -> add_all fadd a c = map (fun k => fadd (nth k a 0) (nth k c 0)) (seq 0 n).
Proof.
  induction n as [|n IH]; intros [|x a] [|y c] La Lc; try discriminate; [reflexivity|]. cbn [add_all seq map nth]. f_equal. rewrite <- seq_shift, map_map. cbn [nth]. apply IH; auto.
Qed.
Lemma nth_map_seq (f : nat -> Z) n k : (k < n)%nat -> nth k (map f (seq 0 n)) 0 = f k.
Proof. intros K. rewrite (nth_indep _ 0 (f 0%nat)) by (rewrite map_length, seq_length; exact K). rewrite map_nth, seq_nth by exact K. reflexivity. Qed.
Lemma self_map : forall (a : list Z), a = map (fun k => nth k a 0) (seq 0 (length a)).
Proof. induction a as [|x a IH]; [reflexivity|]. cbn [length seq map nth]. f_equal. rewrite <- seq_shift, map_map. exact IH. Qed.
Lemma fold_add_all n : forall rows acc, length acc = n -> Forall (fun r => length r = n) rows ->
  fold_left (add_all fadd) rows acc = map (fun k => fold_left fadd (map (fun r => nth k r 0) rows) (nth k acc 0)) (seq 0 n).
Proof.
  induction rows as [|r rows IH]; intros acc La F; cbn [fold_left map].
  - rewrite (self_map acc) at 1. rewrite La. reflexivity.
  - inversion F as [|? ? Lr F']. subst. rewrite (add_all_eq (length acc) acc r eq_refl Lr). rewrite IH; [|rewrite map_length, seq_length; reflexivity|exact F'].
    apply map_ext_in. intros k K. apply in_seq in K. rewrite nth_map_seq by lia. reflexivity.
Qed.
Lemma written_all {A} (l : cells A) v : all l = Some v -> written l = OK v.
Proof. revert v. induction l as [|[x|] l IH]; intros v E; cbn [all written] in *; [injection E as <-; reflexivity| |discriminate]. destruct (all l) as [t|]; [|discriminate]. injection E as <-. rewrite (IH t eq_refl). reflexivity. Qed.
Lemma load_see {A} (m : cells A) off n v : see m off n = Some v -> load m off n = OK v.
Proof. unfold see, load. destruct (_ && _); [apply written_all|discriminate]. Qed.
Lemma all_length {A} : forall (l : cells A) v, all l = Some v -> length v = length l.
Proof. induction l as [|[x|] l IH]; intros v E; cbn [all] in E; [injection E as <-; reflexivity| |discriminate]. destruct (all l) as [t|]; [|discriminate]. injection E as <-. cbn [length]. f_equal. apply IH. reflexivity. Qed.
Lemma see_length {A} (m : cells A) off n v : 0 <= n -> see m off n = Some v -> length v = Z.to_nat n.
Proof. unfold see. intros Nn E. destruct (Z.leb_spec 0 off); [|discriminate]. destruct (Z.leb_spec (off + n) (Z.of_nat (length m))); [|discriminate]. cbn [andb] in E. apply all_length in E. rewrite E, firstn_length, skipn_length. lia. Qed.
Lemma ip_at_pointed l adds j s : pointed adds l j = Some s -> ip_at l adds j = OK s.
Proof.
  destruct j as [|[|[|k]]]; cbn [pointed ip_at]; try (intros ->; reflexivity). destruct (l_add l) as [a|]; [|discriminate]. destruct (Z.leb_spec 0 a); [|discriminate]. cbn [init bind].
  destruct (nth_error adds (Z.to_nat a + k)) as [[x|]|] eqn:E; try discriminate. intros Q. injection Q as ->. assert (L : (Z.to_nat a + k < length adds)%nat) by (apply nth_error_Some; rewrite E; discriminate).
  unfold load. destruct (Z.leb_spec 0 (a + Z.of_nat k)); [|lia]. destruct (Z.leb_spec (a + Z.of_nat k + 1) (Z.of_nat (length adds))); [|lia]. cbn [andb]. replace (Z.to_nat (a + Z.of_nat k)) with (Z.to_nat a + k)%nat by lia.
  apply nth_error_split in E as (pre & post & -> & Lp). rewrite skipn_app, <- Lp, Nat.sub_diag, skipn_all. reflexivity.
Qed.
Section Layers.
Context (l : layers) (nhv : Z) (hist : cells Z) (adds : cells surface) (Hn : 0 <= nhv).
Lemma mean_loop_ok : forall vs n j sg ps hv, n = length vs ->
  (forall k v, nth_error vs k = Some v -> match pointed adds l (j + k) with Some s => see_surface hist nhv s | None => None end = Some v) ->
  mean_loop fadd l nhv hist adds n j sg ps hv = OK (fold_left (add_all fadd) (map v_sigma vs) sg, fold_left fadd (map v_plastic vs) ps, fold_left (add_all fadd) (map v_history vs) hv).
Proof.
  induction vs as [|v vs IH]; intros n j sg ps hv -> F; [reflexivity|]. cbn [length mean_loop map fold_left].
  pose proof (F O v eq_refl) as F0. rewrite Nat.add_0_r in F0. destruct (pointed adds l j) as [s|] eqn:E; [|discriminate]. rewrite (ip_at_pointed l adds j s E). cbn [bind].
  assert (G : (if nhv =? 0 then OK [] else do off <- init (sf_hist s); load hist off nhv) = OK (v_history v) /\ sf_sigma s = v_sigma v /\ sf_plastic s = v_plastic v).
  { unfold see_surface in F0. destruct (nhv =? 0); [injection F0 as <-; auto|]. destruct (sf_hist s) as [off|]; [|discriminate]. cbn [init bind]. destruct (see hist off nhv) as [h|] eqn:Eh; [|discriminate]. injection F0 as <-. rewrite (load_see _ _ _ _ Eh). auto. }
  destruct G as (G1 & G2 & G3). rewrite G1. cbn [bind]. rewrite G2, G3. apply IH; [reflexivity|]. intros k w K. replace (S j + k)%nat with (j + S k)%nat by lia. apply (F (S k) w K).
Qed.
Lemma see_layers_at nadd ips : see_layers hist adds nhv nadd l = Some ips -> length ips = (3 + Z.to_nat nadd)%nat /\
  forall k v, nth_error ips k = Some v -> match pointed adds l k with Some s => see_surface hist nhv s | None => None end = Some v.
Proof.
  unfold see_layers. intros E. split; [apply all_length in E; rewrite map_length, seq_length in E; exact E|].
  assert (G : forall (f : nat -> option surface_view) n i ips, all (map f (seq i n)) = Some ips -> forall k v, nth_error ips k = Some v -> f (i + k)%nat = Some v).
  { intros f. induction n as [|n IH]; intros i ips' E' k v K; cbn [seq map all] in E'; [injection E' as <-; destruct k; discriminate|]. destruct (f i) as [x|] eqn:Ef; [|discriminate]. destruct (all (map f (seq (S i) n))) as [t|] eqn:Et; [|discriminate]. injection E' as <-.
    destruct k as [|k]; cbn [nth_error] in K; [injection K as <-; rewrite Nat.add_0_r; exact Ef|]. replace (i + S k)%nat with (S i + k)%nat by lia. apply (IH (S i) t Et k v K). }
  intros k v K. exact (G _ _ 0%nat ips E k v K).
Qed.
Lemma get_mean_ok nadd ips : 0 <= nadd -> see_layers hist adds nhv nadd l = Some ips -> Forall (fun v => length (v_sigma v) = 6%nat) ips ->
  get_mean fadd fdiv of_int l nhv nadd hist adds = OK (mean_view fadd fdiv of_int (Z.to_nat nhv) ips).
Proof.
  intros Na E F6. destruct (see_layers_at nadd ips E) as (Ln & At). unfold get_mean. rewrite (mean_loop_ok ips) by (try lia; exact At). cbn [bind].
  assert (Fh : Forall (fun v => length (v_history v) = Z.to_nat nhv) ips).
  { apply Forall_forall. intros v Iv. apply In_nth_error in Iv as (k & K). specialize (At k v K). destruct (pointed adds l k) as [s|]; [|discriminate]. unfold see_surface in At. destruct (Z.eqb_spec nhv 0) as [Z0|Z0].
    - injection At as <-. cbn [v_history]. rewrite Z0. reflexivity.
    - destruct (sf_hist s) as [off|]; [|discriminate]. destruct (see hist off nhv) as [h|] eqn:Eh; [|discriminate]. injection At as <-. cbn [v_history]. apply (see_length hist off); assumption. }
  rewrite (fold_add_all 6), (fold_add_all (Z.to_nat nhv)); try (apply Forall_map; assumption); [|apply repeat_length|reflexivity].
  assert (Len : forall f : surface_view -> Z, of_int (3 + nadd) = of_int (Z.of_nat (length (map f ips)))) by (intros f; rewrite map_length, Ln; f_equal; lia).
  unfold mean_view, mean_of. f_equal. f_equal; [f_equal|].
  - rewrite map_map. apply map_ext_in. intros k K. apply in_seq in K. rewrite map_map, <- Len. f_equal. f_equal. destruct k as [|[|[|[|[|[|k]]]]]]; try reflexivity. lia.
  - rewrite <- Len. reflexivity.
  - rewrite map_map. apply map_ext. intros k. rewrite map_map, <- Len. do 2 f_equal. apply nth_repeat.
Qed.
(** No additional integration points although some are announced. *)
Lemma mean_loop_null : l_add l = None -> forall n j sg ps hv, (j <= 3)%nat -> (3 < j + n)%nat -> mean_loop fadd l nhv hist adds n j sg ps hv = UB.
Proof.
  intros A. induction n as [|n IH]; intros j sg ps hv J L; [lia|]. cbn [mean_loop]. destruct (Nat.eq_dec j 3) as [->|Nj]; [cbn [ip_at]; rewrite A; reflexivity|].
  destruct (ip_at l adds j) as [ip| |] eqn:E; [|reflexivity|].
  - cbn [bind]. destruct (if nhv =? 0 then OK [] else do off <- init (sf_hist ip); load hist off nhv) as [h| |] eqn:Eh; cbn [bind]; [apply IH; lia|reflexivity|].
    exfalso. destruct (nhv =? 0); [discriminate|]. destruct (sf_hist ip) as [off|]; [|discriminate]. cbn [init bind] in Eh. unfold load in Eh. destruct (_ && _); [|discriminate]. revert Eh. clear. generalize (firstn (Z.to_nat nhv) (skipn (Z.to_nat off) hist)). induction l as [|[x|] r IH]; cbn [written]; try discriminate. destruct (written r); try discriminate. auto.
  - exfalso. destruct j as [|[|[|j]]]; [| | |lia]; cbn [ip_at] in E; [destruct (l_mid l)|destruct (l_inner l)|destruct (l_outer l)]; discriminate.
Qed.
End Layers.
End Mean.
