(** * C86: the Python class Card *)
From Coq Require Import QArith Qpower.
From Verif Require Import CBase CBaseFacts StringModel StringProofs CardModel CardSpec CardProofs CardFloat CardType KeyTableModel CppKeyModel CppKeySpec CppKeyProofs PropCard PyCardModel PyCardSpec PyCardProofs.
Open Scope nat_scope.
Open Scope list_scope.

Lemma field_cstr s cur w : is_cstr s -> is_cstr (field s cur w).
Proof.
  intros H. unfold field, is_cstr in *. rewrite Forall_forall in *. intros x I. apply H.
  rewrite <- (firstn_skipn cur s). apply in_or_app. right. rewrite <- (firstn_skipn w (skipn cur s)). apply in_or_app. left. exact I.
Qed.

(** The value of a field is determined by its text. *)
Theorem C86_determined : forall f v v', is_cstr f -> length f < 255 -> py_means f v -> py_means f v' -> same_value v v'.
Proof.
  intros f v v' Hf Lf M M'. assert (C : in_card f 0 (length f)) by (split; [exact Hf|split; lia]).
  assert (E : field f 0 (length f) = f) by (unfold field; cbn [skipn]; apply firstn_all).
  assert (Ti : int_typed f -> card_parse_get_type_width f 0 (length f) = OK CARD_INT) by (intros T; apply type_int_complete; [exact C|rewrite E; exact T]).
  assert (Tf : float_typed f -> card_parse_get_type_width f 0 (length f) = OK CARD_FLOAT) by (intros T; apply type_float_complete; [exact C|rewrite E; exact T]).
  assert (Tb : blanks f -> card_parse_get_type_width f 0 (length f) = OK CARD_STRING) by (intros T; apply C15_blank_is_string; [exact C|rewrite E; exact T]).
  destruct M as [B|z T X I|sg ip fr ex q T X Q|u N1 N2 N3 X]; destruct M' as [B'|z' T' X' I'|sg' ip' fr' ex' q' T' X' Q'|u' N1' N2' N3' X']; cbn [same_value]; auto; try contradiction;
    try (specialize (Tb ltac:(assumption))); try (specialize (Ti ltac:(assumption))); try (specialize (Tf ltac:(assumption))); try congruence.
  - pose proof (int_text_accept f 0 (length f) z C ltac:(rewrite E; exact X) I). pose proof (int_text_accept f 0 (length f) z' C ltac:(rewrite E; exact X') I'). congruence.
  - pose proof (float_accept Qarith f 0 (length f) sg ip fr ex C ltac:(rewrite E; exact X)) as A. rewrite (float_accept Qarith f 0 (length f) sg' ip' fr' ex' C ltac:(rewrite E; exact X')) in A.
    apply (f_equal (fun r => match r with OK (x, _) => (x : F Qarith) | _ => inject_Z 0 end)) in A. cbv beta iota in A. rewrite Q, Q'. pose proof (fvalue_Q sg ip fr ex) as V. pose proof (fvalue_Q sg' ip' fr' ex') as V'. rewrite <- V, <- V', A. reflexivity.
  - exact (C18_trimmed_unique f u u' X X').
Qed.

(** Fields of up to 11 columns denote something, unless they are integers that
    begin with a plus. *)
Theorem C86_meaning : forall f, is_cstr f -> length f <= 11 -> ~ (int_typed f /\ exists b t, f = b ++ PLUS :: t /\ blanks b) -> exists v, py_means f v.
Proof.
  intros f Hf Lf Np. assert (C : in_card f 0 (length f)) by (split; [exact Hf|split; lia]).
  assert (E : field f 0 (length f) = f) by (unfold field; cbn [skipn]; apply firstn_all).
  destruct (is_empty_spec f 0 (length f) C) as (e & _ & Be). rewrite E in Be. destruct e; [exists PNone; constructor; apply Be; reflexivity|].
  assert (B : ~ blanks f) by (intros B; apply Be in B; discriminate).
  destruct (C15_type_meaning f 0 (length f) C) as (ty & Ty & Ti & Tf). rewrite E in Ti, Tf. destruct ty.
  - destruct (string_width_spec f 0 (length f)) as (buf & u & _ & _ & T); [split; auto; split; auto; lia|]. rewrite E in T. exists (PText u). constructor; auto.
    + intros X. apply Ti in X. discriminate.
    + intros X. apply Tf in X. discriminate.
  - assert (T : int_typed f) by tauto. pose proof T as (b & sgt & sg & ip & t & Ef & Hb & Sg & Hd & Nd & Ht).
    assert (L : (Z.of_nat (length ip) <= 11)%Z) by (rewrite Ef, !app_length in Lf; lia). pose proof (dec_lt ip Hd) as D. assert (10 ^ Z.of_nat (length ip) <= 10 ^ 11)%Z by (apply Z.pow_le_mono_r; lia).
    destruct Sg as [(-> & ->)|[(-> & ->)|(-> & ->)]].
    + exists (PInt (dec ip)). constructor; [exact T| |unfold int64; lia]. exists b, [], ip, t. repeat split; auto.
    + exfalso. apply Np. split; [exact T|]. exists b, (ip ++ t). split; [exact Ef|exact Hb].
    + exists (PInt (- dec ip)). constructor; [exact T| |unfold int64; lia]. exists b, [MINUS], ip, t. repeat split; auto.
  - assert (T : float_typed f) by tauto. destruct (C15_float_accepted_partial Qarith f 0 (length f) C Lf Ty) as (v & Q).
    destruct (C16_float_accepted_only Qarith f 0 (length f) v C Q) as (sg & ip & fr & ex & X). rewrite E in X.
    exists (PFloat (float_value sg ip fr ex : F Qarith)). apply (PM_float f sg ip fr ex); [exact T|exact X|reflexivity].
Qed.

(** Card.parse returns the value of the current field. *)
Theorem C86_parse_partial : forall s cur w v, in_card s cur w -> py_means (field s cur w) v ->
  exists v', py_parse Qarith true s cur w = OK (Returns v') /\ same_value v v'.
Proof.
  intros s cur w v C M. destruct (py_parse_means s cur w v C M) as (v' & Q & M'). exists v'. split; [exact Q|].
  destruct C as (Hs & Hc & Hw). apply (C86_determined (field s cur w)); auto.
  - apply field_cstr. exact Hs.
  - unfold field. rewrite firstn_length. lia.
Qed.

(** Without trimming, text is the whole field. *)
Theorem C86_untrimmed_partial : forall s cur w, in_card s cur w -> cur + w <= length s ->
  ~ blanks (field s cur w) -> ~ int_typed (field s cur w) -> ~ float_typed (field s cur w) ->
  py_parse Qarith false s cur w = OK (Returns (PText (field s cur w))).
Proof.
  intros s cur w C L B Ni Nf. unfold py_parse. destruct (is_empty_spec s cur w C) as (e & -> & E). cbn [bind]. destruct e; [exfalso; apply B, E; reflexivity|].
  destruct (C15_type_meaning s cur w C) as (ty & -> & Ti & Tf). cbn [bind]. destruct ty; [|tauto|tauto].
  destruct C as (Hs & _). rewrite (C18_no_trim_partial s cur w Hs L). cbn [bind]. rewrite cstring_at_cstr; [reflexivity|]. apply field_cstr. exact Hs.
Qed.

(** Card.parse_whole with a list of widths returns one value for each field. *)
Theorem C86_whole_partial : forall s ws, ws <> [] -> has_room s ws -> (forall k, k < length ws -> exists v, py_means (field_at s ws k) v) ->
  exists vs, py_parse_whole Qarith s ws = OK (Returns vs) /\ length vs = length ws /\
    forall k, k < length ws -> exists v, nth_error vs k = Some v /\ py_means (field_at s ws k) v.
Proof.
  intros s ws Nw (Hs & B & R) M. set (n := length ws) in *. assert (Ln : 0 < n) by (destruct ws; [congruence|cbn in n; lia]).
  destruct (py_prefix s ws Hs B (n - 1) 0) as (vs & Lv & Mv & Q); [fold n; lia|intros k H; apply M; lia| |].
  { intros k H G. specialize (R k ltac:(lia)). lia. }
  cbn [Nat.add] in *. change (column ws 0) with 0 in Q. cbn [Nat.min skipn] in Q.
  destruct (M (n - 1) ltac:(lia)) as (v & M0). pose proof (column_S ws (n - 1) ltac:(fold n; lia)) as St. replace (S (n - 1)) with n in St by lia.
  destruct (py_field s (column ws (n - 1)) (nth (n - 1) ws 0) v Hs ltac:(lia) M0) as (v' & O & M').
  assert (Sk : skipn (n - 1) ws = [nth (n - 1) ws 0]).
  { destruct (exists_last Nw) as (a & w & Ea). unfold n. rewrite Ea, app_length. cbn [length]. replace (length a + 1 - 1) with (length a) by lia. rewrite skipn_app, skipn_all, Nat.sub_diag. cbn [skipn app].
    rewrite app_nth2, Nat.sub_diag by lia. reflexivity. }
  rewrite Sk in Q. cbn [py_whole_from] in Q. rewrite O in Q. cbn [bind] in Q.
  assert (Nx : exists c, card_parse_next_width s (Nat.min (column ws (n - 1)) (length s)) (nth (n - 1) ws 0) = OK c).
  { destruct (Nat.lt_ge_cases (column ws (n - 1)) (length s)) as [H|H].
    - rewrite Nat.min_l by lia. eexists. apply next_in; [exact Hs|exact H|lia].
    - eexists. apply next_min0; [exact Hs|lia|lia]. }
  destruct Nx as (c & Nx). rewrite Nx in Q. cbn [bind] in Q. exists (vs ++ [v']). split; [|split].
  - unfold py_parse_whole. destruct ws as [|w ws]; [congruence|]. exact Q.
  - rewrite app_length, Lv. cbn [length]. lia.
  - intros k H. destruct (Nat.eq_dec k (n - 1)) as [->|Nk].
    + exists v'. split; [|exact M']. rewrite nth_error_app2, Lv, Nat.sub_diag by lia. reflexivity.
    + destruct (Mv k ltac:(lia)) as (x & Nx' & Mx). exists x. split; [|exact Mx]. rewrite nth_error_app1 by lia. exact Nx'.
Qed.

(** Without widths: fields of ten columns, for cards of whole fields. *)
Theorem C86_default_partial : forall s n, is_cstr s -> length s = 10 * n -> length s < 255 -> (forall k, k < n -> exists v, py_means (field s (10 * k) 10) v) ->
  exists vs, py_parse_whole Qarith s [] = OK (Returns vs) /\ length vs = n /\
    forall k, k < n -> exists v, nth_error vs k = Some v /\ py_means (field s (10 * k) 10) v.
Proof.
  intros s n Hs E B M. destruct (py_default s Hs B n 0 FUEL) as (vs & Lv & Mv & Q); [lia|change FUEL with 600; lia|intros k H; apply M; lia|].
  exists vs. split; [|split; [exact Lv|exact Mv]]. unfold py_parse_whole, card_parse_begin. cbn [Nat.add] in Q. change (10 * 0) with 0 in Q. rewrite Q.
  rewrite <- E. assert (F : exists f, FUEL - n = S f) by (exists (599 - n); change FUEL with 600; lia). destruct F as (f & ->). cbn [py_whole_default]. unfold card_parse_done. rewrite cget_end. cbn [bind]. cbn. rewrite app_nil_r. reflexivity.
Qed.

(** What is missing.  An integer with a plus sign is returned as 0. *)
Theorem C86_plus_refuted : forall s cur w b t, in_card s cur w -> int_typed (field s cur w) -> field s cur w = b ++ PLUS :: t -> blanks b ->
  py_parse Qarith true s cur w = OK (Returns (PInt 0)).
Proof.
  intros s cur w b t C T E Hb. unfold py_parse. destruct (is_empty_spec s cur w C) as (e & -> & Be). cbn [bind]. destruct e.
  - exfalso. assert (B : blanks (field s cur w)) by (apply Be; reflexivity). rewrite E in B. apply Forall_app in B as (_ & B). inversion B; subst. discriminate.
  - rewrite (type_int_complete s cur w C T). cbn [bind]. unfold parse_int. rewrite (parse_int_foreign s cur w b PLUS t C E Hb); [reflexivity|discriminate|discriminate|reflexivity].
Qed.
(** A card that ends inside of a field is read behind its end: with a list of
    widths if there is another one, ... *)
Theorem C86_short_refuted : forall s ws k, is_cstr s -> column ws (length ws) < 255 -> S k < length ws -> column ws k < length s < column ws (S k) ->
  (forall i, i <= k -> exists v, py_means (field_at s ws i) v) -> py_parse_whole Qarith s ws = UB.
Proof.
  intros s ws k Hs B Lk Lin M. destruct (py_prefix s ws Hs B k 0) as (vs & Lv & Mv & Q); [lia|intros i H; apply M; lia| |].
  { intros i H G. pose proof (column_mono ws (S i) k ltac:(lia)). lia. }
  cbn [Nat.add] in Q. change (column ws 0) with 0 in Q. cbn [Nat.min skipn] in Q. unfold py_parse_whole, card_parse_begin.
  assert (W : match ws with [] => py_whole_default Qarith FUEL s 0 | _ :: _ => py_whole_from Qarith s ws 0 end = py_whole_from Qarith s ws 0) by (destruct ws; [cbn in Lk; lia|reflexivity]).
  rewrite W, Q. clear W Q. rewrite Nat.min_l by lia.
  assert (Sk : forall j, j < length ws -> skipn j ws = nth j ws 0 :: skipn (S j) ws).
  { clear. intros j. revert ws. induction j as [|j IH]; intros [|w ws] L; cbn [length] in L; try lia; [reflexivity|]. cbn [skipn nth]. apply IH. lia. }
  rewrite (Sk k) by lia. cbn [py_whole_from]. destruct (M k ltac:(lia)) as (v & M0). pose proof (column_S ws k ltac:(lia)) as St. pose proof (column_mono ws (S k) (length ws) ltac:(lia)) as Mo.
  destruct (py_field s (column ws k) (nth k ws 0) v Hs ltac:(lia) M0) as (v' & O & _). rewrite Nat.min_l in O by lia. rewrite O. cbn [bind].
  rewrite next_in by (auto; lia). cbn [bind]. rewrite (Sk (S k)) by lia. rewrite py_whole_past by lia. reflexivity.
Qed.
(** ... and without widths always. *)
Theorem C86_default_short_refuted : forall s n r, is_cstr s -> length s = 10 * n + r -> 0 < r < 10 -> length s < 245 -> (forall k, k <= n -> exists v, py_means (field s (10 * k) 10) v) ->
  py_parse_whole Qarith s [] = UB.
Proof.
  intros s n r Hs E R B M. destruct (py_default s Hs ltac:(lia) n 0 FUEL) as (vs & Lv & Mv & Q); [lia|change FUEL with 600; lia|intros k H; apply M; lia|].
  unfold py_parse_whole, card_parse_begin. cbn [Nat.add] in Q. change (10 * 0) with 0 in Q. rewrite Q. clear Q.
  assert (F : exists f, FUEL - n = S (S f)) by (exists (598 - n); change FUEL with 600; lia). destruct F as (f & ->). set (m := S f). cbn [py_whole_default].
  unfold card_parse_done. rewrite cget_nth0 by lia. cbn [bind]. unfold NUL. pose proof (cstr_nth_range s (10 * n) Hs ltac:(lia)).
  destruct (Z.eqb_spec (nth (10 * n) s 0%Z) 0); [lia|]. unfold DEFAULT_VALUE_WIDTH. destruct (M n ltac:(lia)) as (v & M0).
  assert (C : in_card s (10 * n) 10) by (split; [exact Hs|split; lia]). destruct (py_parse_means s (10 * n) 10 v C M0) as (v' & O & _). rewrite O. cbn [bind].
  rewrite (next_in s (10 * n) 10 Hs ltac:(lia) ltac:(lia)). cbn [bind]. unfold m. cbn [py_whole_default]. unfold card_parse_done. rewrite cget_UB by lia. reflexivity.
Qed.
Theorem C86_untrimmed_short_refuted : py_parse Qarith false (bs "abc") 0 10 = UB.
Proof. vm_compute. reflexivity. Qed.

Example C86_case : exists q, py_parse_whole Qarith (bs "         1     1.5             a b ") [10; 10; 10; 5] = OK (Returns [PInt 1; PFloat q; PNone; PText (bs "a b")]) /\ (q == 3 # 2)%Q.
Proof. eexists. split; [vm_compute; reflexivity|]. vm_compute. reflexivity. Qed.
Example C86_case_room : has_room (bs "         1     1.5             a b ") [10; 10; 10; 5] /\ forall k, k < 4 -> exists v, py_means (field_at (bs "         1     1.5             a b ") [10; 10; 10; 5] k) v.
Proof.
  split.
  - split; [repeat (constructor; [cbn; lia|]); constructor|]. split; [cbn; lia|]. intros [|[|[|k]]] L; cbn in L; try lia; cbn; lia.
  - intros k L. apply C86_meaning.
    + apply field_cstr. repeat (constructor; [cbn; lia|]); constructor.
    + unfold field_at, field. rewrite firstn_length. destruct k as [|[|[|[|k]]]]; cbn [nth]; lia.
    + intros (_ & b & t & Q & _). assert (I : In PLUS (field_at (bs "         1     1.5             a b ") [10; 10; 10; 5] k)) by (rewrite Q; apply in_or_app; right; left; reflexivity).
      destruct k as [|[|[|[|k]]]]; try lia; vm_compute in I; repeat (destruct I as [I|I]; [discriminate I|]); contradiction.
Qed.
Example C86_case_default : py_parse_whole Qarith (bs "         7        +8") [] = OK (Returns [PInt 7; PInt 0]).
Proof. vm_compute. reflexivity. Qed.

Print Assumptions C86_determined.
Print Assumptions C86_meaning.
Print Assumptions C86_whole_partial.
Print Assumptions C86_default_partial.
Print Assumptions C86_short_refuted.
