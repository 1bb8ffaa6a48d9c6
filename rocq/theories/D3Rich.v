(** * A d3plot with elements of all types, for the examples *)
From Verif Require Import CBase BinModel D3BufModel D3BufSpec D3Model D3Spec D3StateProofs D3ReadModel D3ReadSpec D3Sample.
Open Scope Z_scope.

Definition plot_of (files : list (list Z)) : dbuf := {| d_files := map word_file files; d_ws := 4; d_err := None |}.
Lemma of_sound files : Forall (fun f => f_size f = Z.of_nat (length (f_bytes f)) /\ f_ok f = true) (d_files (plot_of files)).
Proof. unfold plot_of. cbn [d_files]. induction files; cbn [map]; constructor; auto. Qed.
Lemma of_aligned files : aligned (plot_of files).
Proof.
  unfold aligned, plot_of. cbn [d_files d_ws]. induction files as [|w l IH]; cbn [map]; constructor; auto. unfold word_file. cbn [f_size].
  exists (Z.of_nat (length w)). clear. induction w as [|x w IHw]; [reflexivity|]. cbn [flat_map]. rewrite app_length, enc_length. cbn [length]. lia.
Qed.
Lemma of_bytes files : bytes_ok (plot_of files).
Proof.
  unfold bytes_ok, all_bytes, plot_of. cbn [d_files]. induction files as [|w l IH]; cbn [map concat]; [constructor|]. apply Forall_app. split; [|exact IH].
  unfold word_file. cbn [f_bytes]. clear. induction w; cbn [flat_map]; [constructor|]. apply Forall_app. split; [apply enc_bytes|exact IHw].
Qed.
(** 2 nodes, 1 solid, 1 thick shell, 1 beam, 1 shell; 3 integration points, one
    history variable per point, strains; beams with two points. *)
Definition rich_settings : list (Z * Z) :=
  [(11, 1); (15, 4); (16, 2); (17, 6); (18, 34); (20, 1); (21, 1); (23, 1); (24, 1); (27, 13); (28, 1); (29, 1); (30, 21); (31, 1); (32, 1); (33, 48);
   (34, 6); (35, 1); (36, 2 ^ 32 - 10003); (39, 28); (40, 1); (41, 1); (42, 36); (43, 1000); (44, 1000); (45, 1000); (46, 1000); (51, 2); (56, 10000); (57, 18); (67, 1)].
Definition rich_words (settings : list (Z * Z)) : list Z := fold_left (fun l s => put l (fst s) (snd s)) (rich_settings ++ settings) (repeat 0 82).
Definition rich_geometry : list Z :=
  [100; 101; 102; 103; 104; 105] ++ [1; 2; 1; 2; 1; 2; 1; 2; 1] ++ [2; 1; 2; 1; 2; 1; 2; 1; 2] ++ [1; 2; 1; 0; 0; 1] ++ [1; 2; 2; 1; 2].
Definition rich_ids : list Z :=
  [2 ^ 32 - 1; 0; 0; 0; 0; 2; 1; 1; 1; 1; 0; 0; 0; 0; 0; 2] ++ [11; 12] ++ [21] ++ [51] ++ [31] ++ [61] ++ [41; 42; 41; 42; 0; 0].
Definition rich_file1 (settings : list (Z * Z)) : list Z := rich_words settings ++ rich_geometry ++ rich_ids ++ [EOF32] ++ title_words ++ [EOF32; 0; 0].
Definition rich_state (n : nat) (t : Z) : list Z := map (fun i => t + Z.of_nat i) (seq 0 n).
(** [n]: the size of a state. *)
Definition rich (settings : list (Z * Z)) (n : nat) : dbuf := plot_of [rich_file1 settings; rich_state n 1000 ++ rich_state n 2000 ++ [EOF32; 0]].

Ltac prove_rich :=
  constructor;
  [split; [apply of_sound|split; [vm_compute; reflexivity|left; reflexivity]]
  |apply of_aligned|reflexivity|apply of_bytes|left; vm_compute; reflexivity|vm_compute; reflexivity|right; vm_compute; reflexivity|apply digits01; vm_compute; reflexivity
  |decide_le|decide_le|apply zeros; vm_compute; reflexivity|decide_le|right; decide_le|vm_compute; reflexivity
  |intros _ A; exfalso; vm_compute in A; discriminate A|vm_compute; discriminate
  |intros _; repeat split; vm_compute; reflexivity|split; [split; decide_le|vm_compute; reflexivity]].
Lemma rich_blocks b : d_ws b = 4 -> wd b 146 = 90001 -> marker_pos b = 145 -> wd b 147 = 2 -> is_eof 4 (wd b 186) = true -> 187 * 4 <= total b ->
  blocks b (marker_pos b + 1) 0 187 148.
Proof.
  intros W A M B E T. rewrite M. change (145 + 1) with 146. apply bl_parts; [split; [lia|]; rewrite W; lia|lia|exact A| |].
  - change (146 + 1) with 147. rewrite B. unfold below. rewrite W. change (72 / 4) with 18. lia.
  - change (146 + 1) with 147. rewrite B. rewrite W. change (146 + 2 + 2 * (1 + 72 / 4)) with 186. change 187 with (186 + 1). change (146 + 2) with 148. apply bl_end; [split; [lia|]; rewrite W; lia|rewrite W; exact E].
Qed.
Ltac prove_rich_layout b n :=
  exists 187, 189; split; [apply rich_blocks; try (vm_compute; reflexivity); decide_le|split; [apply (file_in_end b 0); vm_compute; reflexivity|]];
  apply st_state; [split; decide_le|vm_compute; reflexivity|unfold below; vm_compute; reflexivity|]; replace (189 + state_size b) with (189 + n) by (vm_compute; reflexivity);
  apply st_state; [split; decide_le|vm_compute; reflexivity|unfold below; vm_compute; reflexivity|]; replace (189 + n + state_size b) with (189 + 2 * n) by (vm_compute; reflexivity);
  apply st_end with (q := 191 + 2 * n); [split; decide_le|vm_compute; reflexivity|]; apply (file_in_end b 1); vm_compute; reflexivity.
Lemma open_sample b titles states : supported b -> regular_states b -> layout b titles states -> exists pl, opened b titles states pl.
Proof.
  intros Su Re La. destruct (open_live b Su Re _ _ La) as (pl & Q & _). exists (with_err pl None). split; [exact Su|]. split; [exact Re|]. split; [exact La|]. exists pl, None. auto.
Qed.
Ltac prove_opened b n := apply open_sample; [prove_rich|prove_regular|prove_rich_layout b n].
Definition rich3 : dbuf := rich [] 169.
Lemma rich3_opened : exists pl, opened rich3 148 [189; 358] pl.
Proof. change [189; 358] with [189; 189 + 169]. prove_opened rich3 169. Qed.
(** Four integration points. *)
Definition rich4 : dbuf := rich [(36, 2 ^ 32 - 10004); (33, 56); (42, 44)] 185.
Lemma rich4_opened : exists pl, opened rich4 148 [189; 374] pl.
Proof. change [189; 374] with [189; 189 + 185]. prove_opened rich4 185. Qed.
