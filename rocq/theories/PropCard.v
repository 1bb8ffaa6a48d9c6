(** * C14-C18: card fields *)
From Coq Require Import QArith Qpower.
From Verif Require Import CBase CBaseFacts StringModel StringProofs CardModel CardSpec CardProofs CardFloat CardType.
Open Scope nat_scope.
Open Scope list_scope.

(** ** C14 *)

(** The integer parser accepts a field (errno = 0) exactly when it is blanks,
    an optional '-' and digits, followed by nothing or a blank; the returned
    number is the decimal value.  For fields of at most 18 characters. *)
Theorem C14_int_fields_partial s cur w : in_card s cur w -> w <= 18 ->
  exists o, card_parse_int_width s cur w = OK o /\
    (forall v, o = Some v <-> int_text (field s cur w) v).
Proof.
  intros H W. destruct (parse_int_no_ub s cur w H W) as [o R]. exists o. split; [exact R|]. intros v. split.
  - intros ->. apply (parse_int_some s cur w v H R).
  - intros T. assert (B : (- 2 ^ 63 < v < 2 ^ 63)%Z).
    { destruct T as (b & neg & ds & t & E & Hb & Hd & Ht & Hn).
      destruct (field_length s cur w (b ++ neg ++ ds) t H ltac:(rewrite E, <- !app_assoc; reflexivity)) as [L _].
      rewrite !app_length in L. pose proof (dec_lt ds Hd) as D.
      assert (10 ^ Z.of_nat (length ds) <= 10 ^ 18)%Z by (apply Z.pow_le_mono_r; lia).
      destruct Hn as [(_ & _ & ->)|(_ & ->)]; lia. }
    rewrite (int_text_accept s cur w v H T B) in R. congruence.
Qed.

(** Any width: whenever a number is returned it is the one in the field. *)
Theorem C14_int_sound s cur w v : in_card s cur w -> card_parse_int_width s cur w = OK (Some v) ->
  int_text (field s cur w) v.
Proof. intros H R. apply (parse_int_some s cur w v H R). Qed.

(** Blank fields and fields whose first word contains a foreign character
    are refused. *)
Theorem C14_int_blank s cur w : in_card s cur w -> blanks (field s cur w) -> card_parse_int_width s cur w = OK None.
Proof. apply parse_int_blank. Qed.

Theorem C14_int_foreign s cur w b u x t : in_card s cur w -> w <= 18 -> field s cur w = b ++ u ++ x :: t ->
  blanks b -> ~ In SPACE u -> x <> SPACE -> ~ (48 <= x <= 57)%Z -> (x = MINUS -> u <> []) ->
  card_parse_int_width s cur w = OK None.
Proof.
  intros H W E Hb Hu Nx Nd Nm. destruct (C14_int_fields_partial s cur w H W) as (o & R & Ho). rewrite R. f_equal.
  destruct o as [v|]; [|reflexivity]. exfalso.
  destruct (proj1 (Ho v) eq_refl) as (b' & neg & ds & t' & E' & Hb' & Hd & Ht & Hn). rewrite E in E'. clear - E' Hb Hb' Hu Nx Nd Nm Hd Ht Hn.
  (* the first non-blank character *)
  assert (G : forall b b' p q, b ++ p = b' ++ q -> blanks b -> blanks b' -> stops (fun c => c =? SPACE)%Z p ->
     stops (fun c => c =? SPACE)%Z q -> p = q).
  { clear. intros b. induction b as [|y b IH]; intros b' p q E Hb Hb' Hp Hq.
    - destruct b' as [|z b']; [exact E|]. inversion Hb'; subst. simpl in E. subst p. discriminate.
    - inversion Hb; subst. destruct b' as [|z b']; [simpl in E; subst q; discriminate|].
      injection E as _ E. inversion Hb'; subst. eapply IH; eauto. }
  assert (S1 : stops (fun c => c =? SPACE)%Z (u ++ x :: t)).
  { destruct u as [|y u]; simpl; apply Z.eqb_neq; [assumption|]. intros ->. apply Hu. left; reflexivity. }
  assert (S2 : stops (fun c => c =? SPACE)%Z (neg ++ ds ++ t')).
  { destruct Hn as [(-> & Hne & _)|(-> & _)]; [|reflexivity]. apply (stops_blank_digit ds t'); auto. }
  specialize (G _ _ _ _ E' Hb Hb' S1 S2).
  assert (K : forall u ds t', u ++ x :: t = ds ++ t' -> ~ In SPACE u -> digits ds -> ends t' -> False).
  { clear - Nx Nd. intros u ds. revert u. induction ds as [|d ds IH]; intros u t' E Hu Hd Ht.
    - simpl in E. destruct Ht as [->|[t'' ->]]; [destruct u; discriminate|].
      destruct u as [|y u]; injection E; intros _ Q; [congruence|apply Hu; left; assumption].
    - inversion Hd; subst. destruct u as [|y u]; injection E; intros E' Q; [subst; contradiction|].
      eapply IH; eauto. intros I. apply Hu. right; assumption. }
  destruct Hn as [(-> & _ & _)|(-> & _)].
  - exact (K u ds t' G Hu Hd Ht).
  - simpl in G. destruct u as [|y u]; [injection G as G _; apply Nm; [assumption|reflexivity]|].
    injection G as _ G. apply (K u ds t' G); auto. intros I. apply Hu. right; assumption.
Qed.

(** What is missing of C14: a lone '-' is accepted as 0, a second word in the
    field is ignored, and a '+' is refused. *)
Theorem C14_odd_fields_refuted :
  card_parse_int_width (bs "    -     ") 0 10 = OK (Some 0%Z) /\
  card_parse_int_width (bs "  12 ab   ") 0 10 = OK (Some 12%Z) /\
  card_parse_int_width (bs "        +5") 0 10 = OK None.
Proof. vm_compute. repeat split. Qed.

(** Wider fields: 19 digits overflow the accumulator. *)
Theorem C14_overflow_refuted : card_parse_int_width (bs "9999999999999999999 ") 0 20 = UB.
Proof. vm_compute. reflexivity. Qed.

Example C14_case : in_card (bs "         1       -42") 10 10 /\
  card_parse_int_width (bs "         1       -42") 10 10 = OK (Some (-42)%Z) /\
  int_text (field (bs "         1       -42") 10 10) (-42).
Proof.
  split; [split; [repeat constructor; simpl; lia|split; simpl; lia]|]. split; [vm_compute; reflexivity|].
  exists (bs "       "), [MINUS], (bs "42"), []. repeat split; [repeat constructor|repeat constructor; simpl; lia|left; reflexivity|].
  right. split; reflexivity.
Qed.

(** ** C15 *)

(** The type query is total and means what the grammar says. *)
Theorem C15_type_meaning s cur w : in_card s cur w -> exists ty,
  card_parse_get_type_width s cur w = OK ty /\
  (ty = CARD_INT <-> int_typed (field s cur w)) /\ (ty = CARD_FLOAT <-> float_typed (field s cur w)).
Proof.
  intros H. destruct (type_total s cur w H) as [[R T]|[[R T]|R]].
  - exists CARD_INT. split; [exact R|]. split; [tauto|]. split; [discriminate|].
    intros F. rewrite (type_float_complete s cur w H F) in R. discriminate.
  - exists CARD_FLOAT. split; [exact R|]. split; [|tauto]. split; [discriminate|].
    intros F. rewrite (type_int_complete s cur w H F) in R. discriminate.
  - exists CARD_STRING. split; [exact R|]. split; (split; [discriminate|]); intros F.
    + rewrite (type_int_complete s cur w H F) in R. discriminate.
    + rewrite (type_float_complete s cur w H F) in R. discriminate.
Qed.

(** INT: the float parser accepts the field, and the integer parser does
    unless the number is written with a '+'. *)
Theorem C15_int_accepted_partial A s cur w : in_card s cur w -> w <= 18 ->
  card_parse_get_type_width s cur w = OK CARD_INT ->
  (exists v, card_parse_float_width A s cur w = OK (v, false)) /\
  (~ In PLUS (field s cur w) -> exists v, card_parse_int_width s cur w = OK (Some v)).
Proof.
  intros H W R. destruct (type_total s cur w H) as [[_ T]|[[R2 _]|R2]]; [|congruence|congruence].
  destruct T as (b & sgt & sg & ip & t & E & Hb & Sg & Hip & Nip & T). split.
  - eexists. apply (float_accept A s cur w sg ip None None H).
    exists b, sgt, [], [], t. repeat split; auto; left; auto.
  - intros NP. destruct (C14_int_fields_partial s cur w H W) as (o & Ro & Ho).
    destruct Sg as [[-> ->]|[[-> ->]|[-> ->]]].
    + exists (dec ip). rewrite Ro. f_equal. apply Ho. exists b, [], ip, t. repeat split; auto.
    + exfalso. apply NP. rewrite E. apply in_or_app. right. left. reflexivity.
    + exists (- dec ip)%Z. rewrite Ro. f_equal. apply Ho. exists b, [MINUS], ip, t. repeat split; auto.
Qed.

(** FLOAT: the float parser accepts the field (up to 11 columns; in wider
    ones the exponent can overflow). *)
Theorem C15_float_accepted_partial A s cur w : in_card s cur w -> w <= 11 ->
  card_parse_get_type_width s cur w = OK CARD_FLOAT -> exists v, card_parse_float_width A s cur w = OK (v, false).
Proof.
  intros H W R. destruct (type_total s cur w H) as [[R2 _]|[[_ T]|R2]]; [congruence| |congruence].
  destruct T as (b & sgt & sg & ip & frt & ext & t & E & Hb & Sg & Hip & Nip & Hfr & Hex & Ne & T).
  assert (FT : exists fr ex, float_text (field s cur w) sg ip fr ex).
  { assert (X : exists fr, frac_text frt fr).
    { destruct Hfr as [->|(ds & -> & Hd & _)]; [exists None; left; auto|exists (Some ds); right; eauto]. }
    destruct X as [fr X].
    assert (Y : exists ex, exp_text ext ex).
    { destruct Hex as [->|(m & sg' & v & ds & -> & M & Sg' & Hds & Nds)]; [exists None; left; auto|].
      exists (Some (v * dec ds)%Z). right. exists m, sg', v, ds. repeat split; auto.
      destruct (field_length s cur w (b ++ sgt ++ ip ++ frt ++ (m :: sg' ++ ds)) t H ltac:(rewrite E, <- !app_assoc; reflexivity)) as [L _].
      rewrite !app_length in L. cbn [length] in L. rewrite app_length in L.
      pose proof (dec_lt ds Hds) as D. assert (1 <= length ip) by (destruct ip; [congruence|simpl; lia]).
      assert (10 ^ Z.of_nat (length ds) <= 10 ^ 9)%Z by (apply Z.pow_le_mono_r; lia). lia. }
    destruct Y as [ex Y]. exists fr, ex, b, sgt, frt, ext, t. repeat split; auto. }
  destruct FT as (fr & ex & FT). eexists. apply (float_accept A s cur w sg ip fr ex H FT).
Qed.

Theorem C15_blank_is_string s cur w : in_card s cur w -> blanks (field s cur w) ->
  card_parse_get_type_width s cur w = OK CARD_STRING.
Proof.
  intros H B. eapply (type_no_digits s cur w (field s cur w) [] 1 []); auto.
  - simpl. rewrite app_nil_r. reflexivity.
  - left; auto.
  - exact I.
  - exact I.
  - intros _. exact I.
Qed.

(** What is missing: "+5" has type INT but the integer parser refuses it; in
    a wide field the exponent of a FLOAT overflows; "1.", ".5" parse but have
    type STRING. *)
Theorem C15_plus_refuted : card_parse_get_type_width (bs "        +5") 0 10 = OK CARD_INT /\
  card_parse_int_width (bs "        +5") 0 10 = OK None.
Proof. vm_compute. repeat split. Qed.

Theorem C15_exponent_refuted : card_parse_get_type_width (bs "       1e99999999999") 0 20 = OK CARD_FLOAT /\
  card_parse_float_width Qarith (bs "       1e99999999999") 0 20 = UB.
Proof. vm_compute. repeat split. Qed.

Example C15_case : in_card (bs "  1.25e-3 ") 0 10 /\ card_parse_get_type_width (bs "  1.25e-3 ") 0 10 = OK CARD_FLOAT.
Proof. split; [split; [repeat constructor; simpl; lia|split; simpl; lia]|]. vm_compute. reflexivity. Qed.

(** ** C16 *)

(** In exact arithmetic the parser returns the number the field denotes. *)
Theorem C16_float_exact s cur w sg ip fr ex : in_card s cur w -> float_text (field s cur w) sg ip fr ex ->
  exists v, card_parse_float_width Qarith s cur w = OK (v, false) /\ (v == float_value sg ip fr ex)%Q.
Proof.
  intros H T. exists (fvalue Qarith sg ip fr ex). split; [apply float_accept; assumption|apply fvalue_Q].
Qed.

(** With rounding of relative size [u] in every operation the sign is right
    and the magnitude is off by at most 2 roundings per integer digit, 3 per
    fraction digit and 5 more. *)
Theorem C16_float_rounded u rnd pw s cur w sg ip fr ex : rounding u rnd pw -> in_card s cur w ->
  float_text (field s cur w) sg ip fr ex ->
  exists v m, card_parse_float_width (rounded rnd pw) s cur w = OK (v, false) /\
    (v == inject_Z sg * m)%Q /\
    within u (2 * length ip + 3 * match fr with Some ds => length ds | None => 0 end + 5) m (float_value 1 ip fr ex).
Proof.
  intros Hr H T.
  assert (Sg : exists sgt, sign_text sgt sg) by (destruct T as (b & sgt & frt & ext & t & _ & _ & S & _); eauto).
  destruct Sg as [sgt Sg].
  assert (Hip : digits ip) by (destruct T as (b & ? & frt & ext & t & _ & _ & _ & S & _); assumption).
  assert (Hfr : forall ds, fr = Some ds -> digits ds).
  { destruct T as (b & ? & frt & ext & t & _ & _ & _ & _ & F & _). intros ds ->. destruct F as [[_ Q]|(ds' & _ & D & Q)]; congruence. }
  destruct (fvalue_within u rnd pw Hr sgt sg ip fr ex Sg Hip Hfr) as (m & E & W).
  exists (fvalue (rounded rnd pw) sg ip fr ex), m. split; [apply float_accept; assumption|]. split; assumption.
Qed.

(** Nothing else is accepted: errno = 0 exactly for the texts of this form,
    whatever the arithmetic. *)
Theorem C16_float_accepted_only A s cur w v : in_card s cur w -> card_parse_float_width A s cur w = OK (v, false) ->
  exists sg ip fr ex, float_text (field s cur w) sg ip fr ex.
Proof.
  intros H R. destruct (float_total A s cur w H) as [T|[[v' R']|[R' _]]]; [exact T|congruence|congruence].
Qed.

(** Up to 11 columns the parser is free of undefined behaviour. *)
Theorem C16_float_defined A s cur w : in_card s cur w -> w <= 11 -> exists r, card_parse_float_width A s cur w = OK r.
Proof.
  intros H W. destruct (float_total A s cur w H) as [(sg & ip & fr & ex & T)|[[v' R']|[R' (a & ds & t & E & Hd & Hv & La)]]].
  - eexists. apply float_accept; eassumption.
  - eauto.
  - exfalso. destruct (field_length s cur w (a ++ ds) t H ltac:(rewrite E, <- app_assoc; reflexivity)) as [L _].
    rewrite app_length in L. pose proof (dec_lt ds Hd).
    assert (10 ^ Z.of_nat (length ds) <= 10 ^ 9)%Z by (apply Z.pow_le_mono_r; lia). lia.
Qed.

Example C16_case : in_card (bs "  -1.25e-3") 0 10 /\
  float_text (field (bs "  -1.25e-3") 0 10) (-1) (bs "1") (Some (bs "25")) (Some (-3)%Z) /\
  (float_value (-1) (bs "1") (Some (bs "25")) (Some (-3)%Z) == - (125 # 100000))%Q /\
  rounding 0 (fun x => x) (fun e => Qpower (inject_Z 10) e).
Proof.
  split; [split; [repeat constructor; simpl; lia|split; simpl; lia]|]. split; [|split; [vm_compute; reflexivity|]].
  - exists (bs "  "), [MINUS], (bs ".25"), (bs "e-3"), []. repeat split.
    + repeat constructor.
    + right; right; auto.
    + repeat constructor; simpl; lia.
    + right. exists (bs "25"). repeat split. repeat constructor; simpl; lia.
    + right. exists 101%Z, [MINUS], (-1)%Z, (bs "3"). repeat split; [right; right; auto|repeat constructor; simpl; lia|discriminate].
    + left; reflexivity.
    + left; discriminate.
  - split; [apply Qle_refl|]. split; [auto|]. split; [reflexivity|].
    assert (P : forall e, (0 <= Qpower (inject_Z 10) e)%Q) by (intros e; apply Qpower_pos; discriminate).
    split; [intros x Hx|intros e]; (split; [auto|]); cbn [growth]; rewrite !Qplus_0_r, !Qmult_1_r; split; apply Qle_refl.
Qed.

(** ** C17 *)

(** Cards whose length is a multiple of the width: every field once, in
    order. *)
Theorem C17_iteration_partial s w k : is_cstr s -> 0 < w -> length s = k * w -> length s <= 255 ->
  iterate (S k) s w card_parse_begin = OK (map (fun i => i * w) (seq 0 k)).
Proof. intros Hs Hw E L. apply (iterate_spec s w Hs Hw L k 0 (S k)); lia. Qed.

(** Otherwise the iteration steps over the end of the card and reads behind
    it. *)
Theorem C17_short_card_refuted s w k r : is_cstr s -> 0 < w -> length s = k * w + r -> 0 < r -> r < w -> length s + w <= 255 ->
  iterate (S (S k)) s w card_parse_begin = UB.
Proof.
  intros Hs Hw E Hr Hr2 L. unfold card_parse_begin.
  assert (G : forall k cur, cur + k * w + r = length s -> iterate (S (S k)) s w cur = UB).
  { clear k E. induction k as [|k IH]; intros cur E.
    - cbn [iterate]. assert (C : cur < length s) by lia. pose proof (cstr_nth_range s cur Hs C) as R.
      unfold card_parse_done at 1. rewrite cget_nth0 by lia. cbn [bind]. unfold NUL. destruct (Z.eqb_spec (nth cur s 0%Z) 0); [lia|].
      unfold card_parse_next_width at 1. rewrite cget_nth0 by lia. cbn [bind]. unfold NUL. destruct (Z.eqb_spec (nth cur s 0%Z) 0); [lia|]. cbn [negb].
      destruct (Nat.leb_spec cur (255 - w)); [|lia]. cbn [bind]. unfold card_parse_done. rewrite cget_UB by lia. reflexivity.
    - remember (S (S k)) as n. cbn [iterate]. assert (C : cur < length s) by nia. pose proof (cstr_nth_range s cur Hs C) as R.
      unfold card_parse_done at 1. rewrite cget_nth0 by lia. cbn [bind]. unfold NUL. destruct (Z.eqb_spec (nth cur s 0%Z) 0); [lia|].
      unfold card_parse_next_width at 1. rewrite cget_nth0 by lia. cbn [bind]. unfold NUL. destruct (Z.eqb_spec (nth cur s 0%Z) 0); [lia|]. cbn [negb].
      destruct (Nat.leb_spec cur (255 - w)); [|lia]. cbn [bind]. rewrite IH by nia. reflexivity. }
  apply G. lia.
Qed.

Example C17_case : iterate 3 (bs "         1         2") 10 card_parse_begin = OK [0; 10] /\
  iterate 3 (bs "         1      2") 10 card_parse_begin = UB.
Proof. split; vm_compute; reflexivity. Qed.

(** At the end of a card the position stays where it is. *)
Theorem C17_at_end s w : card_parse_next_width s (length s) w = OK (length s).
Proof. unfold card_parse_next_width. rewrite cget_nth0 by lia. cbn [bind]. rewrite nth_overflow by lia. reflexivity. Qed.

(** A field that would end behind column 255 is the last one: the next position
    is the end of the card. *)
Theorem C17_last_field s w cur : is_cstr s -> cur <= length s -> length s <= 255 -> 255 - w < cur ->
  card_parse_next_width s cur w = OK (length s).
Proof.
  intros Hs C L Hw. unfold card_parse_next_width. rewrite cget_nth0 by lia. cbn [bind].
  destruct (Nat.eq_dec cur (length s)) as [-> |N].
  { rewrite nth_overflow by lia. reflexivity. }
  assert (C' : cur < length s) by lia. pose proof (cstr_nth_range s cur Hs C') as R.
  unfold NUL. destruct (Z.eqb_spec (nth cur s 0%Z) 0); [lia|]. cbn [negb].
  destruct (Nat.leb_spec cur (255 - w)); [lia|].
  set (wk := fix walk (fuel cur : nat) : res nat :=
         match fuel with
         | O => OOF
         | S f => do c <- cget s cur; if negb (c =? 0)%Z then walk f (inc8 cur) else OK cur
         end).
  assert (G : forall k i, k + i = length s -> forall f, k < f -> wk f i = OK (length s)).
  { induction k as [|k IH]; intros i Ei f Hf; (destruct f as [|f]; [lia|]); cbn [wk]; rewrite cget_nth0 by lia; cbn [bind].
    - rewrite nth_overflow by lia. cbn. f_equal. lia.
    - assert (Hi : i < length s) by lia. pose proof (cstr_nth_range s i Hs Hi) as R'.
      destruct (Z.eqb_spec (nth i s 0%Z) 0); [lia|]. cbn [negb]. fold wk.
      unfold inc8. rewrite Nat.mod_small by lia. apply IH; lia. }
  apply (G (length s - cur)); [lia|]. unfold FUEL. lia.
Qed.
Example C17_end_case : card_parse_next_width (repeat 49%Z 250) 248 8 = OK 250 /\ iterate 40 (repeat 49%Z 250) 8 card_parse_begin = OK (map (fun i => i * 8) (seq 0 32)).
Proof. split; vm_compute; reflexivity. Qed.

(** ** C18 *)

(** String fields: the returned C string is the field without leading and
    trailing blanks. *)
Theorem C18_string_trimmed s cur w : is_cstr s -> cur <= length s -> w <= 255 ->
  exists buf t, card_parse_string_width s cur w = OK buf /\ cstring_at buf = OK t /\ trimmed (field s cur w) t.
Proof. intros. apply string_width_spec. split; auto. Qed.

(** [trimmed] determines the text. *)
Theorem C18_trimmed_unique f t t' : trimmed f t -> trimmed f t' -> t = t'.
Proof.
  intros (b1 & b2 & E & H1 & H2 & Ht) (b1' & b2' & E' & H1' & H2' & Ht'). rewrite E in E'. clear E f.
  assert (G : forall b b' p q, b ++ p = b' ++ q -> blanks b -> blanks b' ->
     (p <> [] -> hd SPACE p <> SPACE) -> (q <> [] -> hd SPACE q <> SPACE) -> p = q \/ (blanks p /\ blanks q)).
  { clear. intros b. induction b as [|y b IH]; intros b' p q E Hb Hb' Hp Hq.
    - destruct b' as [|z b']; [left; exact E|]. inversion Hb'; subst. simpl in E. subst p. exfalso. apply Hp; [discriminate|reflexivity].
    - inversion Hb; subst. destruct b' as [|z b']; [simpl in E; subst q; exfalso; apply Hq; [discriminate|reflexivity]|].
      injection E as _ E. inversion Hb'; subst. eapply IH; eauto. }
  assert (B : forall l, blanks l -> (l <> [] -> hd SPACE l <> SPACE) -> l = []).
  { intros [|x l] B H; [reflexivity|]. inversion B; subst. exfalso. apply H; [discriminate|reflexivity]. }
  (* reduce to the empty / nonempty cases *)
  assert (All : forall b1 t b2 b1' t' b2', b1 ++ t ++ b2 = b1' ++ t' ++ b2' -> blanks b1 -> blanks b2 -> blanks b1' -> blanks b2' ->
    (t <> [] -> hd SPACE t <> SPACE /\ last t SPACE <> SPACE) -> (t' <> [] -> hd SPACE t' <> SPACE /\ last t' SPACE <> SPACE) ->
    t = [] -> t' = []).
  { clear - B. intros b1 t b2 b1' t' b2' E H1 H2 H1' H2' Ht Ht' ->. simpl in E.
    assert (X : blanks (b1' ++ t' ++ b2')) by (rewrite <- E; unfold blanks; apply Forall_app; split; assumption).
    unfold blanks in X. apply Forall_app in X as [_ X]. apply Forall_app in X as [X _].
    apply B; [exact X|]. intros N. apply Ht'. exact N. }
  destruct t as [|x t]; [symmetry; eapply All; [exact E'|..]; auto|].
  destruct t' as [|x' t']; [eapply All; [symmetry; exact E'|..]; auto|].
  destruct (Ht ltac:(discriminate)) as [A1 A2]. destruct (Ht' ltac:(discriminate)) as [A3 A4].
  destruct (G b1 b1' ((x :: t) ++ b2) ((x' :: t') ++ b2') E' H1 H1' ltac:(intros _; exact A1) ltac:(intros _; exact A3)) as [E2|[X _]].
  - (* compare from the end *)
    apply (f_equal (@rev Z)) in E2. rewrite !rev_app_distr in E2.
    destruct (G (rev b2) (rev b2') (rev (x :: t)) (rev (x' :: t')) E2) as [E3|[X _]].
    + unfold blanks in *. apply Forall_rev. assumption.
    + unfold blanks in *. apply Forall_rev. assumption.
    + intros _. destruct (exists_last (l := x :: t) ltac:(discriminate)) as (l & y & El). rewrite El, rev_app_distr. simpl.
      rewrite El, last_last in A2. exact A2.
    + intros _. destruct (exists_last (l := x' :: t') ltac:(discriminate)) as (l & y & El). rewrite El, rev_app_distr. simpl.
      rewrite El, last_last in A4. exact A4.
    + rewrite <- (rev_involutive (x :: t)), E3, rev_involutive. reflexivity.
    + exfalso. apply Forall_rev in X. rewrite rev_involutive in X. inversion X; subst. apply A1. reflexivity.
  - exfalso. inversion X; subst. apply A1. reflexivity.
Qed.

Theorem C18_whole_trimmed s : is_cstr s ->
  exists buf t, card_parse_whole s = OK buf /\ cstring_at buf = OK t /\ trimmed s t.
Proof. apply whole_spec. Qed.

Theorem C18_is_empty s cur w : in_card s cur w ->
  exists e, card_parse_is_empty_width s cur w = OK e /\ (e = true <-> blanks (field s cur w)).
Proof. apply is_empty_spec. Qed.

(** The untrimmed variant copies the full width and so reads behind a card
    that is shorter. *)
Theorem C18_no_trim_partial s cur w : is_cstr s -> cur + w <= length s ->
  card_parse_string_width_no_trim s cur w = OK (field s cur w ++ [NUL]).
Proof.
  intros Hs L. unfold card_parse_string_width_no_trim.
  rewrite string_clone_len_ok by (rewrite skipn_length, app_length; cbn [length]; lia).
  rewrite skipn_firstn_nul by lia. reflexivity.
Qed.
Theorem C18_no_trim_short_refuted : card_parse_string_width_no_trim (bs "abc") 0 10 = UB.
Proof. vm_compute. reflexivity. Qed.

Example C18_case : (do b <- card_parse_string_width (bs "   ab c    x") 1 9; cstring_at b) = OK (bs "ab c").
Proof. vm_compute. reflexivity. Qed.

Print Assumptions C14_int_fields_partial.
Print Assumptions C14_int_sound.
Print Assumptions C14_int_blank.
Print Assumptions C14_int_foreign.
Print Assumptions C14_odd_fields_refuted.
Print Assumptions C14_overflow_refuted.
Print Assumptions C15_type_meaning.
Print Assumptions C15_int_accepted_partial.
Print Assumptions C15_float_accepted_partial.
Print Assumptions C15_blank_is_string.
Print Assumptions C15_plus_refuted.
Print Assumptions C15_exponent_refuted.
Print Assumptions C16_float_exact.
Print Assumptions C16_float_rounded.
Print Assumptions C16_float_accepted_only.
Print Assumptions C16_float_defined.
Print Assumptions C17_iteration_partial.
Print Assumptions C17_short_card_refuted.
Print Assumptions C17_at_end.
Print Assumptions C17_last_field.
Print Assumptions C18_string_trimmed.
Print Assumptions C18_trimmed_unique.
Print Assumptions C18_whole_trimmed.
Print Assumptions C18_is_empty.
Print Assumptions C18_no_trim_partial.
Print Assumptions C18_no_trim_short_refuted.
