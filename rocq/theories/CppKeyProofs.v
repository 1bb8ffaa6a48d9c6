(** * Proofs about the C++ card and keyword interface *)
From Coq Require Import QArith Qpower.
From Verif Require Import CBase CBaseFacts StringModel StringProofs CardModel CardSpec CardProofs CardFloat CardType KeyTableModel CppKeyModel CppKeySpec.
Open Scope nat_scope.
Open Scope list_scope.

(** ** Integers *)
Lemma limits t z : moderate z ->
  (in_range t z <-> ((z <? 0)%Z && is_unsigned t = false /\ (z <? 0)%Z && below_min t z = false /\ (z >? 0)%Z && (z >? limit_max t)%Z = false)).
Proof.
  unfold moderate. intros M. assert (U : (z mod 2 ^ 64 <? 0)%Z = false) by (apply Z.ltb_ge, Z.mod_pos_bound; reflexivity).
  destruct t; cbn [in_range is_unsigned below_min limit_min limit_max]; rewrite ?U, ?andb_true_r, ?andb_false_r; lia.
Qed.

Lemma parse_int_text t s cur w z : in_card s cur w -> int_text (field s cur w) z -> moderate z ->
  (in_range t z -> parse_int t s cur w = OK (Returns z)) /\ (~ in_range t z -> parse_int t s cur w = OK Throws).
Proof.
  intros C T M. unfold parse_int. rewrite (int_text_accept s cur w z C T M). cbn [bind]. pose proof (limits t z M) as L. split.
  - intros R. apply L in R as (-> & -> & ->). reflexivity.
  - intros R. destruct ((z <? 0)%Z && is_unsigned t); [reflexivity|]. destruct ((z <? 0)%Z && below_min t z); [reflexivity|].
    destruct ((z >? 0)%Z && (z >? limit_max t)%Z); [reflexivity|]. exfalso. apply R, L. auto.
Qed.

(** ** Whole cards *)
Definition one (A : farith) (t : vtype) (s : cstr) (cur w : nat) : res (call (value A)) :=
  do e <- card_parse_is_empty_width s cur w; if e then OK (Returns (empty_value A t)) else parse A t s cur w.

Lemma parse_next_one A s t w rest cur : parse_next A s (t, w) rest cur =
  (do v <- one A t s cur (width w); match v with
   | Throws => OK Throws
   | Returns v => do cur <- card_parse_next_width s cur (width w); do r <- rest cur;
       OK (match r with Returns vs => Returns (v :: vs) | Throws => Throws end)
   end).
Proof.
  unfold parse_next, one. cbn [fst snd]. replace (if w =? 0 then DEFAULT_VALUE_WIDTH else w) with (width w) by (destruct w; reflexivity).
  destruct (card_parse_is_empty_width s cur (width w)) as [[]| |]; reflexivity.
Qed.

Lemma blank_not_int f z : blanks f -> ~ int_text f z.
Proof.
  intros B (b & neg & ds & t & -> & Hb & Hd & Ht & Hn). unfold blanks in B. rewrite !Forall_app in B. destruct B as (_ & B1 & B2 & _).
  destruct Hn as [(-> & Nd & _)|(-> & _)].
  - destruct ds as [|d ds]; [congruence|]. inversion B2; subst. inversion Hd; subst. unfold SPACE in *. lia.
  - inversion B1; subst. discriminate.
Qed.

Lemma one_means t s cur w v : in_card s cur w -> w <= 255 -> means t (field s cur w) v ->
  exists v', one Qarith t s cur w = OK (Returns v') /\ means t (field s cur w) v'.
Proof.
  intros C W M. unfold one. destruct (is_empty_spec s cur w C) as (e & -> & E). cbn [bind]. destruct e.
  - assert (B : blanks (field s cur w)) by (apply E; reflexivity). eexists. split; [reflexivity|]. destruct t as [t| |]; cbn [empty_value].
    + constructor. exact B.
    + apply M_float_blank. exact B.
    + constructor. exists (field s cur w), []. rewrite !app_nil_r. split; [reflexivity|]. split; [exact B|]. split; [constructor|congruence].
  - assert (B : ~ blanks (field s cur w)) by (intros B; apply E in B; discriminate). inversion M as [? ? X|? X|t' f z T R Mo|f sg ip fr ex q T Q|f u T]; subst; [contradiction|contradiction| | |].
    + cbn [parse]. destruct (parse_int_text t' s cur w z C T Mo) as (P & _). rewrite (P R). cbn [bind]. eexists. split; [reflexivity|]. constructor; auto.
    + cbn [parse]. rewrite (float_accept Qarith s cur w sg ip fr ex C T). cbn [bind fst]. eexists. split; [reflexivity|].
      apply (M_float _ sg ip fr ex (fvalue Qarith sg ip fr ex)); [exact T|apply fvalue_Q].
    + cbn [parse]. destruct C as (Hs & Hc & _). destruct (string_width_spec s cur w) as (buf & u' & -> & Q & T'); [split; auto|]. cbn [bind]. rewrite Q. cbn [bind].
      eexists. split; [reflexivity|]. constructor. exact T'.
Qed.

Lemma one_throws t s cur w z : in_card s cur w -> int_text (field s cur w) z -> moderate z -> ~ in_range t z ->
  one Qarith (TInt t) s cur w = OK Throws.
Proof.
  intros C T M R. unfold one. destruct (is_empty_spec s cur w C) as (e & -> & E). cbn [bind]. destruct e.
  - exfalso. exact (blank_not_int _ z (proj1 E eq_refl) T).
  - cbn [parse]. destruct (parse_int_text t s cur w z C T M) as (_ & P). rewrite (P R). reflexivity.
Qed.

Lemma start_S ws k : k < length ws -> start ws (S k) = start ws k + width (nth k ws 0).
Proof.
  unfold start. revert k. induction ws as [|w ws IH]; intros [|k] L; cbn [length] in L; try lia.
  - cbn [firstn map list_sum nth]. cbn. lia.
  - cbn [firstn map nth]. change (list_sum (?a :: ?l)) with (a + list_sum l). specialize (IH k ltac:(lia)). cbn [firstn] in IH. cbn. unfold list_sum in *. lia.
Qed.
Lemma width_pos w : 0 < width w.
Proof. destruct w; cbn; lia. Qed.
Lemma start_mono ws j k : j <= k -> start ws j <= start ws k.
Proof.
  intros L. induction L as [|k L IH]; [lia|]. destruct (Nat.lt_ge_cases k (length ws)) as [H|H].
  - rewrite (start_S ws k H). lia.
  - unfold start in *. rewrite (firstn_all2 (n := S k)) by lia. rewrite (firstn_all2 (n := k)) in IH by lia. exact IH.
Qed.

Lemma field_min s p w : field s (Nat.min p (length s)) w = field s p w.
Proof. unfold field. destruct (Nat.le_ge_cases p (length s)); [rewrite Nat.min_l by lia; reflexivity|]. rewrite Nat.min_r by lia. rewrite !skipn_all2 by lia. reflexivity. Qed.

Lemma next_min s p w : is_cstr s -> p + w < 255 -> (p < length s -> p + w <= length s) -> 0 < w ->
  card_parse_next_width s (Nat.min p (length s)) w = OK (Nat.min (p + w) (length s)).
Proof.
  intros Hs B L W. unfold card_parse_next_width. rewrite cget_nth0 by lia. cbn [bind]. unfold NUL.
  destruct (Nat.lt_ge_cases p (length s)) as [H|H].
  - rewrite Nat.min_l by lia. pose proof (cstr_nth_range s p Hs H). destruct (Z.eqb_spec (nth p s 0%Z) 0); [lia|]. cbn [negb].
    destruct (Nat.leb_spec p (255 - w)); [|lia]. rewrite Nat.min_l by lia. reflexivity.
  - rewrite !Nat.min_r by lia. rewrite nth_overflow by lia. reflexivity.
Qed.

(** The first fields can be read: what remains is the rest. *)
Lemma prefix_ok s ws : is_cstr s -> start ws (length ws) < 255 ->
  forall l2 l1 k0, k0 + length l1 + length l2 <= length ws ->
  (forall i t w, nth_error l1 i = Some (t, w) -> nth (k0 + i) ws 0 = w) ->
  (forall i t w, nth_error l1 i = Some (t, w) -> exists v, means t (field_of s ws (k0 + i)) v) ->
  (forall i, i < length l1 -> start ws (k0 + i) < length s -> start ws (S (k0 + i)) <= length s) ->
  exists vs, length vs = length l1 /\
   (forall i t w, nth_error l1 i = Some (t, w) -> exists v, nth_error vs i = Some v /\ means t (field_of s ws (k0 + i)) v) /\
   parse_from Qarith s (l1 ++ l2) (Nat.min (start ws k0) (length s)) =
   (do r <- parse_from Qarith s l2 (Nat.min (start ws (k0 + length l1)) (length s));
    OK (match r with Returns vs2 => Returns (vs ++ vs2) | Throws => Throws end)).
Proof.
  intros Hs B l2. induction l1 as [|[t w] l1 IH]; intros k0 L E M F.
  - exists []. split; [reflexivity|]. split; [intros [|] ? ? Q; discriminate|]. cbn [app length]. rewrite Nat.add_0_r.
    destruct (parse_from Qarith s l2 (Nat.min (start ws k0) (length s))) as [[|]| |]; reflexivity.
  - cbn [length] in L. destruct (IH (S k0)) as (vs & Lv & Mv & Q).
    { lia. } { intros i t' w' H. replace (S k0 + i) with (k0 + S i) by lia. apply (E (S i) t'); exact H. }
    { intros i t' w' H. replace (S k0 + i) with (k0 + S i) by lia. apply (M (S i) t' w'); exact H. }
    { intros i Hi. replace (S k0 + i) with (k0 + S i) by lia. apply F. cbn [length]. lia. }
    pose proof (E 0 t w eq_refl) as E0. rewrite Nat.add_0_r in E0. destruct (M 0 t w eq_refl) as (v & M0). rewrite Nat.add_0_r in M0.
    pose proof (start_S ws k0 ltac:(lia)) as St. rewrite E0 in St.
    pose proof (start_mono ws (S k0) (length ws) ltac:(lia)) as Mo.
    assert (C : in_card s (Nat.min (start ws k0) (length s)) (width w)) by (split; [exact Hs|split; lia]).
    unfold field_of in M0. rewrite E0, <- (field_min s (start ws k0)) in M0. destruct (one_means t s _ (width w) v C ltac:(lia) M0) as (v' & O & M').
    exists (v' :: vs). split; [cbn [length]; lia|]. split.
    + intros [|i] t' w' H; [injection H as <- <-|].
      * exists v'. split; [reflexivity|]. rewrite Nat.add_0_r. unfold field_of. rewrite E0, <- (field_min s (start ws k0)). exact M'.
      * replace (k0 + S i) with (S k0 + i) by lia. apply (Mv i t' w' H).
    + cbn [app]. unfold parse_from at 1. cbn [fold_right]. fold (parse_from Qarith s (l1 ++ l2)). rewrite parse_next_one, O. cbn [bind].
      assert (F0 : start ws k0 < length s -> start ws k0 + width w <= length s).
      { intros H. specialize (F 0 ltac:(cbn [length]; lia)). rewrite Nat.add_0_r in F. specialize (F H). lia. }
      rewrite (next_min s (start ws k0) (width w) Hs ltac:(lia) F0 (width_pos w)). cbn [bind]. rewrite <- St, Q. cbn [length].
      replace (k0 + S (length l1)) with (S k0 + length l1) by lia.
      destruct (parse_from Qarith s l2 (Nat.min (start ws (S k0 + length l1)) (length s))) as [[|]| |]; reflexivity.
Qed.

Lemma fits_next s ws : fits s ws -> forall k, S k < length ws -> start ws k < length s -> start ws (S k) <= length s.
Proof.
  intros (_ & _ & [(j & Lj & E)|L]) k Lk H.
  - destruct (Nat.lt_ge_cases k j) as [G|G]; [pose proof (start_mono ws (S k) j G); lia|]. pose proof (start_mono ws j k G). lia.
  - pose proof (start_mono ws (S k) (length ws - 1) ltac:(lia)). lia.
Qed.

Lemma empty_past s cur w : length s < cur -> 0 < w -> card_parse_is_empty_width s cur w = UB.
Proof.
  intros L W. unfold card_parse_is_empty_width. change FUEL with (S 599). cbn iota.
  replace (cur <? cur + w) with true by (symmetry; apply Nat.ltb_lt; lia). rewrite cget_UB by lia. reflexivity.
Qed.

Lemma widths_nth (l : list (vtype * nat)) i t w : nth_error l i = Some (t, w) -> nth i (map snd l) 0 = w.
Proof. intros H. apply nth_error_nth. rewrite nth_error_map, H. reflexivity. Qed.

Lemma nth_split_at {A} (l : list A) k x : nth_error l k = Some x -> l = firstn k l ++ x :: skipn (S k) l.
Proof.
  revert k. induction l as [|y l IH]; intros [|k] H; try discriminate.
  - injection H as ->. reflexivity.
  - cbn [firstn skipn app]. f_equal. apply IH. exact H.
Qed.
Lemma nth_firstn_some {A} (l : list A) k i x : nth_error (firstn k l) i = Some x -> i < k /\ nth_error l i = Some x.
Proof.
  revert k i. induction l as [|y l IH]; intros [|k] [|i] H; try discriminate; cbn [firstn nth_error] in *.
  - split; [lia|exact H].
  - destruct (IH k i H). split; [lia|assumption].
Qed.

Lemma parse_whole_default s l : parse_whole Qarith s l = parse_whole_width Qarith s (map (fun t => (t, 0)) l).
Proof. unfold parse_whole, parse_whole_width, parse_from. generalize card_parse_begin. induction l as [|t l IH]; intros cur; [reflexivity|].
  cbn [map fold_right]. unfold parse_next_default, parse_next. cbn [fst snd Nat.eqb].
  destruct (card_parse_is_empty_width s cur DEFAULT_VALUE_WIDTH) as [e| |]; [|reflexivity|reflexivity]. cbn [bind].
  destruct (if e then _ else _) as [[v|]| |]; try reflexivity. cbn [bind].
  destruct (card_parse_next_width s cur DEFAULT_VALUE_WIDTH) as [c| |]; try reflexivity. cbn [bind]. rewrite IH. reflexivity.
Qed.
