(** * A small d3plot, for the examples *)
From Verif Require Import CBase BinModel D3BufModel D3BufSpec D3Model D3Spec D3StateProofs.
Open Scope Z_scope.

Fixpoint enc (n : nat) (v : Z) : list Z := match n with O => [] | S n => v mod 256 :: enc n (v / 256) end.
Definition word_file (l : list Z) : dfile := let d := flat_map (enc 4) l in {| f_bytes := d; f_size := Z.of_nat (length d); f_ok := true |}.
Definition put (l : list Z) (i v : Z) : list Z := firstn (Z.to_nat i) l ++ v :: skipn (Z.to_nat (i + 1)) l.
(** The control words: 2 nodes, a solid, a shell, 4 materials, displacements off. *)
Definition control_words (settings : list (Z * Z)) : list Z := fold_left (fun l s => put l (fst s) (snd s)) settings (repeat 0 64).
Definition sample_settings : list (Z * Z) :=
  [(11, 1); (15, 4); (16, 2); (17, 6); (18, 20); (20, 1); (21, 1); (23, 1); (24, 1); (27, 7); (31, 1); (32, 1); (33, 33); (36, 2 ^ 32 - 10003); (39, 26); (43, 1000); (44, 1000); (45, 1000); (46, 1000); (51, 2)].
Definition geometry_words : list Z :=
  [100; 101; 102; 103; 104; 105] ++ [1; 2; 1; 2; 1; 2; 1; 2; 1] ++ [1; 2; 2; 1; 2].
Definition id_words : list Z :=
  [2 ^ 32 - 1; 0; 0; 0; 0; 2; 1; 0; 1; 0; 0; 0; 0; 0; 0; 2] ++ [11; 12] ++ [21] ++ [31] ++ [41; 42; 41; 42; 0; 0].
Definition title_words : list Z := [90001; 2] ++ (41 :: repeat 65 18) ++ (42 :: repeat 66 18).
Definition sample_file1 (settings : list (Z * Z)) : list Z :=
  control_words settings ++ geometry_words ++ id_words ++ [EOF32] ++ title_words ++ [EOF32; 0; 0].
Definition state_words (t : Z) : list Z := t :: map (fun i => t + Z.of_nat i) (seq 1 74).
Definition sample_file2 : list Z := state_words 1000 ++ state_words 2000 ++ [EOF32; 0].
Definition sample_with (settings : list (Z * Z)) (more : list (list Z)) : dbuf :=
  {| d_files := map word_file (sample_file1 settings :: more); d_ws := 4; d_err := None |}.
Definition sample : dbuf := sample_with sample_settings [sample_file2].

Lemma sample_sound s more : Forall (fun f => f_size f = Z.of_nat (length (f_bytes f)) /\ f_ok f = true) (d_files (sample_with s more)).
Proof. unfold sample_with. cbn [d_files]. generalize (sample_file1 s :: more). induction l; cbn [map]; constructor; auto. Qed.
Lemma enc_length n v : length (enc n v) = n.
Proof. revert v. induction n; intros v; cbn; auto. Qed.
Lemma sample_aligned s more : aligned (sample_with s more).
Proof.
  unfold aligned, sample_with. cbn [d_files d_ws]. generalize (sample_file1 s :: more). induction l as [|w l IH]; cbn [map]; constructor; auto. unfold word_file. cbn [f_size].
  exists (Z.of_nat (length w)). induction w as [|x w IHw]; [reflexivity|]. cbn [flat_map]. rewrite app_length, enc_length. cbn [length]. lia.
Qed.
Lemma enc_bytes n v : Forall (fun x => 0 <= x < 256) (enc n v).
Proof. revert v. induction n; intros v; cbn [enc]; constructor; auto. apply Z.mod_pos_bound. lia. Qed.
Lemma sample_bytes s more : bytes_ok (sample_with s more).
Proof.
  unfold bytes_ok, all_bytes, sample_with. cbn [d_files]. generalize (sample_file1 s :: more). induction l as [|w l IH]; cbn [map concat]; [constructor|]. apply Forall_app. split; [|exact IH].
  unfold word_file. cbn [f_bytes]. clear. induction w; cbn [flat_map]; [constructor|]. apply Forall_app. split; [apply enc_bytes|exact IHw].
Qed.
Lemma digits01 v : (forallb (fun n => negb (digit_of v n =? 1)) [0; 1; 2; 3]) = true -> forall n, 0 <= n <= 3 -> digit_of v n <> 1.
Proof.
  intros A n N. rewrite forallb_forall in A. specialize (A n). assert (I : In n [0; 1; 2; 3]) by (cbn; lia). apply A in I. intros X. rewrite X in I. discriminate I.
Qed.
Lemma zeros b l : forallb (fun f => cval b f =? 0) l = true -> forall f, In f l -> cval b f = 0.
Proof. intros A f I. rewrite forallb_forall in A. apply A in I. apply Z.eqb_eq. exact I. Qed.
Lemma bits b l : forallb (fun f => (cval b f =? 0) || (cval b f =? 1)) l = true -> forall f, In f l -> cval b f = 0 \/ cval b f = 1.
Proof. intros A f I. rewrite forallb_forall in A. apply A in I. apply orb_true_iff in I. destruct I as [I|I]; apply Z.eqb_eq in I; auto. Qed.
Ltac decide_le := apply Z.leb_le; vm_compute; reflexivity.
Ltac decide_lt := apply Z.ltb_lt; vm_compute; reflexivity.

Ltac prove_supported :=
  constructor;
  [split; [apply sample_sound|split; [vm_compute; reflexivity|left; reflexivity]]
  |apply sample_aligned|reflexivity|apply sample_bytes|left; vm_compute; reflexivity|vm_compute; reflexivity|right; vm_compute; reflexivity|apply digits01; vm_compute; reflexivity
  |decide_le|decide_le|apply zeros; vm_compute; reflexivity|decide_le|left; vm_compute; reflexivity|vm_compute; reflexivity|intros A; vm_compute in A; discriminate A|vm_compute; discriminate
  |intros _; repeat split; vm_compute; reflexivity|split; [split; decide_le|vm_compute; reflexivity]].
Ltac prove_regular := constructor; [apply bits; vm_compute; reflexivity|decide_le|vm_compute; reflexivity].
Lemma sample_supported : supported sample.
Proof. prove_supported. Qed.
Lemma sample_regular : regular_states sample.
Proof. prove_regular. Qed.
Definition file_in (b : dbuf) (k : nat) (i q : Z) (more : bool) : bool :=
  match nth_error (d_files b) k with
  | Some f => let pre := Z.of_nat (length (concat (map f_bytes (firstn k (d_files b))))) in
              (pre <=? i * d_ws b) && (i * d_ws b <? pre + f_size f) && (q * d_ws b =? pre + f_size f) && Bool.eqb more (negb (length (d_files b) =? S k)%nat)
  | None => false
  end.
Lemma file_in_end b k i q more : file_in b k i q more = true -> file_end b i q more.
Proof.
  unfold file_in, file_end. destruct (nth_error (d_files b) k) as [f|] eqn:E; [|discriminate]. intros A. apply nth_error_split in E as (pre & post & E & L). rewrite E in A.
  rewrite firstn_app, L, Nat.sub_diag in A. rewrite <- L in A. rewrite firstn_all, firstn_O, app_nil_r in A.
  exists pre, f, post. split; [exact E|]. apply andb_true_iff in A as (A & M). apply andb_true_iff in A as (A & Q). apply andb_true_iff in A as (A1 & A2). split; [lia|]. split; [lia|].
  apply eqb_prop in M. rewrite M. f_equal. rewrite app_length. cbn [length]. destruct post; cbn [length]; apply Nat.eqb_eq || apply Nat.eqb_neq; lia.
Qed.
Lemma sample_blocks s more : wd (sample_with s more) 111 = 90001 -> marker_pos (sample_with s more) = 110 -> wd (sample_with s more) 112 = 2 -> is_eof 4 (wd (sample_with s more) 151) = true -> 152 * 4 <= total (sample_with s more) ->
  blocks (sample_with s more) (marker_pos (sample_with s more) + 1) 0 152 113.
Proof.
  intros A M B E T. rewrite M. change (110 + 1) with 111. apply bl_parts; [split; [lia|]; change (d_ws (sample_with s more)) with 4; lia|lia|exact A| |].
  - change (111 + 1) with 112. rewrite B. unfold below. change (d_ws (sample_with s more)) with 4. change (72 / 4) with 18. lia.
  - change (111 + 1) with 112. rewrite B. change (d_ws (sample_with s more)) with 4. change (111 + 2 + 2 * (1 + 72 / 4)) with 151. change 152 with (151 + 1). change (111 + 2) with 113. apply bl_end; [split; [lia|]; change (d_ws (sample_with s more)) with 4; lia|exact E].
Qed.
Lemma sample_layout : layout sample 113 [154; 229].
Proof.
  exists 152, 154. split; [|split].
  - apply sample_blocks; try (vm_compute; reflexivity). decide_le.
  - apply (file_in_end sample 0). vm_compute. reflexivity.
  - apply st_state; [split; decide_le|vm_compute; reflexivity|unfold below; vm_compute; reflexivity|]. replace (154 + state_size sample) with 229 by (vm_compute; reflexivity).
    apply st_state; [split; decide_le|vm_compute; reflexivity|unfold below; vm_compute; reflexivity|]. replace (229 + state_size sample) with 304 by (vm_compute; reflexivity).
    apply st_end with (q := 306); [split; decide_le|vm_compute; reflexivity|]. apply (file_in_end sample 1). vm_compute. reflexivity.
Qed.
