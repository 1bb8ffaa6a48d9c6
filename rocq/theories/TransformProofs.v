From Coq Require Import QArith Qpower.
From Verif Require Import CBase CBaseFacts StringModel StringProofs CardModel CardSpec CardProofs CardFloat CardType PropCard
  TransformModel TransformSpec.
Open Scope nat_scope.
Open Scope list_scope.

Lemma Qtrunc_comp x y : (x == y)%Q -> Qtrunc x = Qtrunc y.
Proof.
  unfold Qeq, Qtrunc. intros E.
  rewrite <- (Z.quot_mul_cancel_r (Qnum x) (Zpos (Qden x)) (Zpos (Qden y))) by lia.
  rewrite <- (Z.quot_mul_cancel_r (Qnum y) (Zpos (Qden y)) (Zpos (Qden x))) by lia.
  rewrite E. f_equal. lia.
Qed.

(** ** single fields *)
Lemma type_cases s cur w : in_card s cur w ->
  (card_parse_get_type_width s cur w = OK CARD_INT /\ int_typed (field s cur w)) \/
  (card_parse_get_type_width s cur w = OK CARD_FLOAT /\ float_typed (field s cur w)) \/
  (card_parse_get_type_width s cur w = OK CARD_STRING /\ ~ int_typed (field s cur w) /\ ~ float_typed (field s cur w)).
Proof.
  intros H. destruct (C15_type_meaning s cur w H) as (ty & R & I & Fl). destruct ty.
  - right. right. split; [exact R|]. split; intros X; [apply I in X|apply Fl in X]; discriminate.
  - left. split; [exact R|]. apply I; reflexivity.
  - right. left. split; [exact R|]. apply Fl; reflexivity.
Qed.

Lemma accepted_float s cur : in_card s cur W ->
  card_parse_get_type_width s cur W = OK CARD_INT \/ card_parse_get_type_width s cur W = OK CARD_FLOAT ->
  exists sg ip fr ex v, float_text (field s cur W) sg ip fr ex /\
    card_parse_float_width Qarith s cur W = OK (v, false) /\ (v == float_value sg ip fr ex)%Q.
Proof.
  intros H T. assert (X : exists v, card_parse_float_width Qarith s cur W = OK (v, false)).
  { destruct T as [T|T].
    - apply (C15_int_accepted_partial Qarith s cur W H); [unfold W; lia|assumption].
    - apply (C15_float_accepted_partial Qarith s cur W H); [unfold W; lia|assumption]. }
  destruct X as [v X]. destruct (C16_float_accepted_only Qarith s cur W v H X) as (sg & ip & fr & ex & FT).
  destruct (C16_float_exact s cur W sg ip fr ex H FT) as (v' & R & E). exists sg, ip, fr, ex, v'. auto.
Qed.

Lemma try_int_spec s cur d : in_card s cur W -> int_readable (Some (field s cur W)) ->
  exists v, try_parse_int Qarith Qftoi s cur d = OK v /\ int_member (Some (field s cur W)) d v.
Proof.
  intros H R. destruct (R _ eq_refl) as [NP Rg]. unfold try_parse_int.
  destruct (type_cases s cur W H) as [[E T]|[[E T]|(E & N1 & N2)]]; rewrite E, bind_OK.
  - destruct (proj2 (C15_int_accepted_partial Qarith s cur W H ltac:(unfold W; lia) E) NP) as [v P]. rewrite P, bind_OK.
    exists v. split; [reflexivity|]. left. split; [assumption|]. exact (C14_int_sound s cur W v H P).
  - destruct (accepted_float s cur H (or_intror E)) as (sg & ip & fr & ex & v & FT & P & Q). rewrite P, bind_OK.
    exists (Qtrunc (float_value sg ip fr ex)). split.
    + unfold Qftoi. rewrite (Qtrunc_comp _ _ Q). specialize (Rg sg ip fr ex FT).
      destruct (Z.leb_spec (- 2 ^ 63) (Qtrunc (float_value sg ip fr ex))); [|lia].
      destruct (Z.ltb_spec (Qtrunc (float_value sg ip fr ex)) (2 ^ 63)); [reflexivity|lia].
    + right. left. split; [assumption|]. exists sg, ip, fr, ex. auto.
  - exists d. split; [reflexivity|]. right. right. auto.
Qed.

Lemma try_float_spec s cur d : in_card s cur W ->
  exists v, try_parse_float Qarith s cur d = OK v /\ float_member (Some (field s cur W)) d v.
Proof.
  intros H. unfold try_parse_float.
  destruct (type_cases s cur W H) as [[E T]|[[E T]|(E & N1 & N2)]]; rewrite E, bind_OK.
  - destruct (accepted_float s cur H (or_introl E)) as (sg & ip & fr & ex & v & FT & P & Q). rewrite P, bind_OK.
    exists v. split; [reflexivity|]. left. split; [auto|]. exists sg, ip, fr, ex. auto.
  - destruct (accepted_float s cur H (or_intror E)) as (sg & ip & fr & ex & v & FT & P & Q). rewrite P, bind_OK.
    exists v. split; [reflexivity|]. left. split; [auto|]. exists sg, ip, fr, ex. auto.
  - exists d. split; [reflexivity|]. right. split; [assumption|]. split; [assumption|reflexivity].
Qed.

(** ** moving over a padded card *)
Definition at_field (s : cstr) (i : nat) : Prop := padded s /\ 10 * i <= length s.

Lemma at_begin s : padded s -> at_field s 0.
Proof. intros H. split; [assumption|lia]. Qed.

Lemma done_spec s i : at_field s i -> card_parse_done s (10 * i) = OK (match fld s i with Some _ => false | None => true end).
Proof.
  intros [(Hs & _ & _) L]. unfold card_parse_done, fld. destruct (Nat.ltb_spec (10 * i) (length s)) as [Lt|Ge].
  - pose proof (cstr_nth_range s (10 * i) Hs Lt). rewrite cget_nth0 by lia. cbn [bind]. unfold NUL.
    destruct (Z.eqb_spec (nth (10 * i) s 0%Z) 0); [lia|reflexivity].
  - replace (10 * i) with (length s) by lia. rewrite cget_end. reflexivity.
Qed.

Lemma fld_some s i f : at_field s i -> fld s i = Some f -> f = field s (10 * i) 10 /\ in_card s (10 * i) W /\ str_card s (10 * i) W /\ at_field s (S i).
Proof.
  intros [(Hs & Hl & [q D]) L] E. unfold fld in E. destruct (Nat.ltb_spec (10 * i) (length s)) as [Lt|Ge]; [|discriminate].
  injection E as <-. split; [reflexivity|]. unfold in_card, str_card, at_field, W. repeat split; try assumption; try lia.
  exists q. exact D.
Qed.
Lemma fld_none_next s i j : fld s i = None -> i <= j -> fld s j = None.
Proof. unfold fld. intros E L. destruct (Nat.ltb_spec (10 * i) (length s)); [discriminate|]. destruct (Nat.ltb_spec (10 * j) (length s)); [lia|reflexivity]. Qed.

Lemma next_spec s i f : at_field s i -> fld s i = Some f -> card_parse_next_width s (10 * i) W = OK (10 * S i).
Proof.
  intros H E. destruct (fld_some s i f H E) as (_ & _ & _ & [_ L]). destruct H as [(Hs & Hl & D) _].
  pose proof (cstr_nth_range s (10 * i) Hs ltac:(lia)). unfold card_parse_next_width. rewrite cget_nth0 by lia. cbn [bind]. unfold NUL.
  destruct (Z.eqb_spec (nth (10 * i) s 0%Z) 0); [lia|]. cbn [negb]. unfold W.
  destruct (Nat.leb_spec (10 * i) (255 - 10)); [|lia]. f_equal. lia.
Qed.

Lemma aset_ok {T} (l : list T) : forall i v, i < length l -> exists l', aset l i v = OK l' /\ length l' = length l /\
  forall j d, nth j l' d = if j =? i then v else nth j l d.
Proof.
  induction l as [|x l IH]; intros i v H; [simpl in H; lia|]. destruct i as [|i].
  - exists (v :: l). split; [reflexivity|]. split; [reflexivity|]. intros [|j] d; reflexivity.
  - destruct (IH i v ltac:(simpl in H; lia)) as (l' & E & L & N). cbn [aset]. rewrite E. cbn [bind].
    exists (x :: l'). split; [reflexivity|]. split; [simpl; lia|]. intros [|j] d; [reflexivity|]. simpl. apply N.
Qed.

Section Members.
Context {T : Type} (try : cstr -> nat -> T -> res T) (R : option (list Z) -> T -> T -> Prop) (ok : option (list Z) -> Prop).
Hypothesis try_ok : forall s cur d, in_card s cur W -> ok (Some (field s cur W)) ->
  exists v, try s cur d = OK v /\ R (Some (field s cur W)) d v.
Hypothesis R_none : forall d, R None d d.

Lemma parse_members_spec s dft k0 : forall n fuel i mem, at_field s (k0 + i) -> i + n = length mem -> n < fuel ->
  (forall j, i <= j < length mem -> ok (fld s (k0 + j))) ->
  exists mem' k, parse_members try fuel s (10 * (k0 + i)) i mem = OK (mem', 10 * k) /\ at_field s k /\ length mem' = length mem /\
    (k = k0 + length mem \/ (fld s k = None /\ k <= k0 + length mem)) /\
    (forall j, j < i -> nth j mem' dft = nth j mem dft) /\
    (forall j, i <= j < length mem -> R (fld s (k0 + j)) (nth j mem dft) (nth j mem' dft)).
Proof.
  induction n as [|n IH]; intros fuel i mem H Hn Hf Ho; (destruct fuel as [|fuel]; [lia|]); cbn [parse_members];
    rewrite (done_spec s (k0 + i) H), bind_OK.
  - replace (i <? length mem) with false by (symmetry; apply Nat.ltb_ge; lia). rewrite andb_false_r.
    exists mem, (k0 + i). split; [reflexivity|]. split; [assumption|]. split; [reflexivity|]. split; [left; lia|].
    split; [reflexivity|]. intros j Hj. lia.
  - destruct (fld s (k0 + i)) as [f|] eqn:Ef.
    + replace (i <? length mem) with true by (symmetry; apply Nat.ltb_lt; lia). cbn [negb andb].
      destruct (fld_some s (k0 + i) f H Ef) as (Ff & Ic & _ & Nx).
      unfold aget. destruct (nth_error mem i) as [x|] eqn:Nx'; [|apply nth_error_None in Nx'; lia]. cbn [bind].
      assert (Ok1 : ok (Some (field s (10 * (k0 + i)) W))) by (unfold W; rewrite <- Ff, <- Ef; apply Ho; lia).
      destruct (try_ok s (10 * (k0 + i)) x Ic Ok1) as (v & Tv & Rv). rewrite Tv. cbn [bind].
      destruct (aset_ok mem i v ltac:(lia)) as (mem1 & E1 & L1 & N1). rewrite E1. cbn [bind].
      rewrite (next_spec s (k0 + i) f H Ef). cbn [bind].
      replace (S (k0 + i)) with (k0 + (i + 1)) in * by lia.
      destruct (IH fuel (i + 1) mem1 Nx ltac:(lia) ltac:(lia)) as (mem' & k & E & Hk & Lk & Kk & Lo & Hi).
      { intros j Hj. apply Ho. lia. }
      exists mem', k. rewrite E. split; [reflexivity|]. split; [assumption|]. split; [lia|]. split; [rewrite <- L1; assumption|]. split.
      * intros j Hj. rewrite Lo by lia. rewrite N1. destruct (Nat.eqb_spec j i); [lia|reflexivity].
      * intros j Hj. destruct (Nat.eq_dec j i) as [->|Ne].
        -- rewrite Lo by lia. rewrite N1, Nat.eqb_refl. rewrite Ef, Ff. apply nth_error_nth with (d := dft) in Nx'. rewrite Nx'. exact Rv.
        -- specialize (Hi j ltac:(lia)). rewrite N1 in Hi. destruct (Nat.eqb_spec j i); [lia|exact Hi].
    + cbn [negb andb]. exists mem, (k0 + i). split; [reflexivity|]. split; [assumption|]. split; [reflexivity|].
      split; [right; split; [assumption|lia]|]. split; [reflexivity|].
      intros j Hj. rewrite (fld_none_next s (k0 + i) (k0 + j) Ef) by lia. apply R_none.
Qed.
End Members.

Lemma int_none d : int_member None d d. Proof. reflexivity. Qed.
Lemma float_none (d : Q) : float_member None d d. Proof. reflexivity. Qed.

(** string members *)
Lemma string_field_spec s i f : at_field s i -> fld s i = Some f ->
  exists buf, card_parse_string_width s (10 * i) W = OK buf /\ str_member (Some f) (Some buf).
Proof.
  intros H E. destruct (fld_some s i f H E) as (Ff & _ & Sc & _).
  destruct (string_width_spec s (10 * i) W Sc) as (buf & t & R & C & T). exists buf. split; [assumption|].
  exists t. split; [assumption|]. rewrite Ff. exact T.
Qed.

(** ** the cards *)
Notation IT := (include_transform Qarith).
Notation card := (include_transform_card Qarith Qftoi).

Definition card1_ok (s : cstr) := padded s /\ forall j, j < 7 -> int_readable (fld s j).
Lemma card1_spec (it : IT) s : card1_ok s -> exists it', card it s 1 = OK it' /\
  (forall j, j < 7 -> int_member (fld s j) (nth j (offsets _ it) 0%Z) (nth j (offsets _ it') 0%Z)) /\
  file_name it' = file_name it /\ idroff it' = idroff it /\ prefix it' = prefix it /\ suffix it' = suffix it /\
  fctmas it' = fctmas it /\ fcttim it' = fcttim it /\ fctlen it' = fctlen it /\ fcttem it' = fcttem it /\
  incout1 it' = incout1 it /\ tranid it' = tranid it.
Proof.
  intros [P Rd]. cbn [include_transform_card].
  destruct (parse_members_spec (try_parse_int Qarith Qftoi) int_member int_readable try_int_spec int_none s 0%Z 0
              7 FUEL 0 (offsets _ it) (at_begin s P) eq_refl ltac:(unfold FUEL; lia)) as (l & k & E & _ & L & _ & _ & M).
  { intros j Hj. apply Rd. exact (proj2 Hj). }
  change (10 * (0 + 0)) with card_parse_begin in E. rewrite E, bind_OK.
  change (length (offsets _ it)) with 7 in *.
  destruct l as [|a [|b [|c [|d [|e [|f [|g [|h l]]]]]]]]; try discriminate L.
  eexists. split; [reflexivity|]. split; [|cbn; repeat split; reflexivity].
  intros j Hj. specialize (M j ltac:(lia)). exact M.
Qed.

Definition card2_ok (s : cstr) := padded s /\ int_readable (fld s 0).
Lemma card2_spec (it : IT) s : card2_ok s -> prefix it = None -> suffix it = None -> exists r p x, card it s 2 = OK (set_card2 _ it r p x) /\
  int_member (fld s 0) (idroff it) r /\ str_member (fld s 2) p /\ str_member (fld s 3) x.
Proof.
  intros [P Rd] Hp Hx. cbn [include_transform_card]. change card_parse_begin with (10 * 0). pose proof (at_begin s P) as H0.
  assert (Eta : it = set_card2 _ it (idroff it) None None) by (destruct it; simpl in *; subst; reflexivity).
  rewrite (done_spec s 0 H0), bind_OK. destruct (fld s 0) as [f0|] eqn:E0.
  2:{ exists (idroff it), None, None. rewrite <- Eta. rewrite (fld_none_next s 0 2), (fld_none_next s 0 3) by (assumption || lia). repeat split. }
  destruct (fld_some s 0 f0 H0 E0) as (F0 & I0 & S0 & H1).
  destruct (try_int_spec s (10 * 0) (idroff it) I0) as (r & Er & Mr); [rewrite F0 in Rd; exact Rd|].
  rewrite Er, bind_OK. rewrite (next_spec s 0 f0 H0 E0), bind_OK, (done_spec s 1 H1), bind_OK.
  assert (Mr' : int_member (Some f0) (idroff it) r) by (rewrite F0; exact Mr).
  destruct (fld s 1) as [f1|] eqn:E1.
  2:{ exists r, None, None. rewrite Hp, Hx. rewrite (fld_none_next s 1 2), (fld_none_next s 1 3) by (assumption || lia). repeat split. exact Mr'. }
  destruct (fld_some s 1 f1 H1 E1) as (F1 & I1 & S1 & H2).
  rewrite (next_spec s 1 f1 H1 E1), bind_OK, (done_spec s 2 H2), bind_OK.
  destruct (fld s 2) as [f2|] eqn:E2.
  2:{ exists r, None, None. rewrite Hp, Hx. rewrite (fld_none_next s 2 3) by (assumption || lia). repeat split. exact Mr'. }
  destruct (string_field_spec s 2 f2 H2 E2) as (p & Ep & Mp). rewrite Ep, bind_OK.
  destruct (fld_some s 2 f2 H2 E2) as (F2 & I2 & S2 & H3).
  rewrite (next_spec s 2 f2 H2 E2), bind_OK, (done_spec s 3 H3), bind_OK.
  destruct (fld s 3) as [f3|] eqn:E3.
  2:{ exists r, (Some p), None. cbn [suffix set_card2]. rewrite Hx. repeat split; [exact Mr'|exact Mp]. }
  destruct (string_field_spec s 3 f3 H3 E3) as (x & Ex & Mx). rewrite Ex, bind_OK.
  exists r, (Some p), (Some x). repeat split; [exact Mr'|exact Mp|exact Mx].
Qed.

Definition card3_ok (s : cstr) := padded s /\ int_readable (fld s 4).
Lemma card3_spec (it : IT) s : card3_ok s -> fcttem it = None -> exists it', card it s 3 = OK it' /\
  (forall j, j < 3 -> float_member (fld s j) (nth j (factors _ it) 0%Q) (nth j (factors _ it') 0%Q)) /\
  str_member (fld s 3) (fcttem it') /\ int_member (fld s 4) (incout1 it) (incout1 it') /\
  file_name it' = file_name it /\ offsets _ it' = offsets _ it /\ idroff it' = idroff it /\ prefix it' = prefix it /\ suffix it' = suffix it /\
  tranid it' = tranid it.
Proof.
  intros [P Rd] Ht. cbn [include_transform_card].
  destruct (parse_members_spec (try_parse_float Qarith) float_member (fun _ => True) (fun s cur d H _ => try_float_spec s cur d H) float_none s 0%Q 0
              3 FUEL 0 (factors _ it) (at_begin s P) eq_refl ltac:(unfold FUEL; lia) (fun _ _ => I)) as (l & k & E & Hk & L & Kk & _ & M).
  change (10 * (0 + 0)) with card_parse_begin in E. rewrite E, bind_OK.
  change (length (factors _ it)) with 3 in *.
  destruct l as [|a [|b [|c [|d l]]]]; try discriminate L.
  cbn [set_factors bind]. rewrite (done_spec s k Hk), bind_OK.
  assert (M' : forall j, j < 3 -> float_member (fld s j) (nth j (factors _ it) 0%Q) (nth j [a; b; c] 0%Q)) by (intros j Hj; apply (M j); lia).
  clear M E.
  destruct (fld s k) as [f3|] eqn:E3.
  2:{ eexists. split; [reflexivity|]. cbn [factors offsets file_name fctmas fcttim fctlen fcttem incout1 idroff prefix suffix tranid idnoff ideoff idpoff idmoff idsoff idfoff iddoff].
      split; [exact M'|]. rewrite Ht, (fld_none_next s k 3), (fld_none_next s k 4) by (assumption || lia). repeat split. }
  destruct Kk as [-> |[Q _]]; [|congruence]. change (0 + 3) with 3 in *.
  destruct (string_field_spec s 3 f3 Hk E3) as (t & Et & Mt). rewrite Et, bind_OK.
  destruct (fld_some s 3 f3 Hk E3) as (F3 & I3 & S3 & H4).
  rewrite (next_spec s 3 f3 Hk E3), bind_OK, (done_spec s 4 H4), bind_OK, E3.
  destruct (fld s 4) as [f4|] eqn:E4.
  2:{ eexists. split; [reflexivity|]. split; [exact M'|]. split; [exact Mt|]. repeat split. }
  destruct (fld_some s 4 f4 H4 E4) as (F4 & I4 & S4 & H5).
  destruct (try_int_spec s (10 * 4) (incout1 it) I4) as (r & Er & Mr); [rewrite F4 in Rd; exact Rd|].
  cbn [incout1 set_tem]. rewrite Er, bind_OK. eexists. split; [reflexivity|]. split; [exact M'|]. split; [exact Mt|].
  split; [rewrite F4; exact Mr|]. repeat split.
Qed.

Definition card4_ok (s : cstr) := is_cstr s /\ int_readable (fld s 0).
Lemma first_field_spec s d : card4_ok s -> exists v, try_parse_int Qarith Qftoi s card_parse_begin d = OK v /\ int_member (fld s 0) d v.
Proof.
  intros [P Rd]. unfold fld in *. simpl (10 * 0) in *.
  assert (I : in_card s card_parse_begin W) by (unfold in_card, card_parse_begin, W; repeat split; [assumption|lia|lia]).
  destruct (Nat.ltb_spec 0 (length s)).
  - destruct (try_int_spec s card_parse_begin d I Rd) as (v & E & M). exists v. split; assumption.
  - destruct s; [|simpl in *; lia]. exists d. split; [reflexivity|reflexivity].
Qed.
Lemma card4_spec (it : IT) s : card4_ok s -> exists v, card it s 4 = OK (set_tranid _ it v) /\ int_member (fld s 0) (tranid it) v.
Proof.
  intros H. destruct (first_field_spec s (tranid it) H) as (v & E & M). cbn [include_transform_card].
  destruct H as [P Rd]. destruct s as [|c s].
  - exists (tranid it). split; [|reflexivity]. destruct it. reflexivity.
  - inversion P; subst. exists v. split; [|exact M]. unfold card_parse_done at 1, card_parse_begin at 1. unfold cget, aget. cbn [app nth_error bind].
    unfold NUL. destruct (Z.eqb_spec c 0); [lia|]. rewrite E. reflexivity.
Qed.

Lemma it_cards_spec cards : it_cards_ok cards -> exists it, key_parse_include_transform Qarith Qftoi cards = OK it /\ it_meaning cards it.
Proof.
  intros (Hc & Hp & R1 & R2 & R3 & R4). unfold key_parse_include_transform.
  destruct cards as [|s0 cards]; [eexists; split; [reflexivity|]; unfold it_meaning, cfld; cbn; repeat split; reflexivity|].
  cbn [it_cards]. change (0 <? 5) with true. cbn iota.
  inversion Hc as [|? ? C0 Hc1]; subst.
  destruct (whole_spec s0 C0) as (buf & t & E0 & B0 & T0). cbn [include_transform_card]. rewrite E0, !bind_OK.
  assert (M0 : str_member (Some s0) (Some buf)) by (exists t; auto). clear E0 B0 T0.
  set (it0 := set_file_name Qarith (it_default Qarith) (Some buf)).
  destruct cards as [|s1 cards].
  { exists it0. split; [reflexivity|]. unfold it_meaning, cfld. cbn. split; [exact M0|]. repeat split; reflexivity. }
  cbn [it_cards]. change (0 + 1 <? 5) with true. change (0 + 1) with 1. cbn iota.
  destruct (card1_spec it0 s1) as (it1 & E1 & M1 & Q1).
  { split; [apply (Hp 1); [lia|reflexivity]|]. intros j Hj. exact (R1 j Hj). }
  rewrite E1, bind_OK. clear E1.
  destruct Q1 as (A1 & A2 & A3 & A4 & A5 & A6 & A7 & A8 & A9 & A10).
  pose proof (M1 0 ltac:(lia)) as N0. pose proof (M1 1 ltac:(lia)) as N1. pose proof (M1 2 ltac:(lia)) as N2. pose proof (M1 3 ltac:(lia)) as N3.
  pose proof (M1 4 ltac:(lia)) as N4. pose proof (M1 5 ltac:(lia)) as N5. pose proof (M1 6 ltac:(lia)) as N6. clear M1.
  cbn [nth offsets] in N0, N1, N2, N3, N4, N5, N6.
  destruct cards as [|s2 cards].
  { exists it1. split; [reflexivity|]. unfold it_meaning, cfld. cbn [nth_error]. rewrite A1, A2, A3, A4, A5, A6, A7, A8, A9, A10.
    split; [exact M0|]. split; [repeat split; assumption|]. repeat split. all: reflexivity. }
  cbn [it_cards]. change (1 + 1 <? 5) with true. change (1 + 1) with 2. cbn iota.
  destruct (card2_spec it1 s2) as (r & p & x & E2 & P0 & P2 & P3); [split; [apply (Hp 2); [lia|reflexivity]|exact R2]|exact A3|exact A4|].
  rewrite E2, bind_OK. clear E2. rewrite A2 in P0. set (it2 := set_card2 _ it1 r p x).
  destruct cards as [|s3 cards].
  { exists it2. split; [reflexivity|]. unfold it_meaning, cfld, it2. cbn [nth_error set_card2 file_name idnoff ideoff idpoff idmoff idsoff idfoff iddoff idroff prefix suffix fctmas fcttim fctlen fcttem incout1 tranid]. rewrite A1, A5, A6, A7, A8, A9, A10.
    split; [exact M0|]. split; [repeat split; assumption|]. split; [repeat split; assumption|]. repeat split. all: reflexivity. }
  cbn [it_cards]. change (2 + 1 <? 5) with true. change (2 + 1) with 3. cbn iota.
  destruct (card3_spec it2 s3) as (it3 & E3 & M3 & T3 & I3 & Q3); [split; [apply (Hp 3); [lia|reflexivity]|exact R3]|exact A8|].
  rewrite E3, bind_OK. clear E3. destruct Q3 as (B1 & B2 & B3 & B4 & B5 & B6).
  pose proof (M3 0 ltac:(lia)) as K0. pose proof (M3 1 ltac:(lia)) as K1. pose proof (M3 2 ltac:(lia)) as K2. clear M3.
  unfold it2 in K0, K1, K2, I3, B1, B2, B3, B4, B5, B6.
  cbn [nth factors set_card2 fctmas fcttim fctlen incout1] in K0, K1, K2, I3. rewrite A5 in K0. rewrite A6 in K1. rewrite A7 in K2. rewrite A9 in I3.
  unfold offsets in B2. cbn [set_card2 idnoff ideoff idpoff idmoff idsoff idfoff iddoff] in B2.
  injection B2 as D0 D1 D2 D3 D4 D5 D6.
  cbn [set_card2 file_name idroff prefix suffix tranid] in B1, B3, B4, B5, B6.
  destruct cards as [|s4 cards].
  { exists it3. split; [reflexivity|]. unfold it_meaning, cfld. cbn [nth_error]. rewrite B1, B3, B4, B5, B6, D0, D1, D2, D3, D4, D5, D6, A1, A10.
    split; [exact M0|]. split; [repeat split; assumption|]. split; [repeat split; assumption|]. split; [repeat split; assumption|]. reflexivity. }
  cbn [it_cards]. change (3 + 1 <? 5) with true. change (3 + 1) with 4. cbn iota.
  destruct (card4_spec it3 s4) as (v & E4 & M4).
  { split; [|exact R4]. inversion Hc1 as [|? ? _ Hc2]; subst. inversion Hc2 as [|? ? _ Hc3]; subst. inversion Hc3 as [|? ? _ Hc4]; subst. inversion Hc4; assumption. }
  rewrite E4, bind_OK. clear E4. rewrite B6, A10 in M4.
  exists (set_tranid _ it3 v). split.
  { destruct cards; reflexivity. }
  unfold it_meaning, cfld. cbn [nth_error set_tranid file_name idnoff ideoff idpoff idmoff idsoff idfoff iddoff idroff prefix suffix fctmas fcttim fctlen fcttem incout1 tranid].
  rewrite B1, B3, B4, B5, D0, D1, D2, D3, D4, D5, D6, A1.
  split; [exact M0|]. split; [repeat split; assumption|]. split; [repeat split; assumption|]. split; [repeat split; assumption|]. exact M4.
Qed.

(** ** DEFINE_TRANSFORMATION *)
Lemma option_card_spec dt s i ti : 2 <= i \/ (i = 1 /\ ti = false) -> padded s -> exists o,
  define_transformation_card Qarith Qftoi dt s i ti = OK (mkDT _ (dt_tranid dt) (dt_options dt ++ [o]) (dt_title dt)) /\ option_meaning s o.
Proof.
  intros Hi P. unfold define_transformation_card.
  replace (i =? 0) with false by (symmetry; apply Nat.eqb_neq; lia).
  replace ((i =? 1) && ti) with false by (symmetry; destruct Hi as [|[-> ->]]; [destruct (Nat.eqb_spec i 1); [lia|reflexivity]|reflexivity]).
  cbn zeta iota. pose proof (at_begin s P) as H0. change card_parse_begin with (10 * 0).
  rewrite (done_spec s 0 H0), bind_OK. unfold option_meaning. destruct (fld s 0) as [f0|] eqn:E0.
  - destruct (string_field_spec s 0 f0 H0 E0) as (n & En & Mn). rewrite En, bind_OK.
    destruct (fld_some s 0 f0 H0 E0) as (F0 & I0 & S0 & H1). rewrite (next_spec s 0 f0 H0 E0), bind_OK.
    destruct (parse_members_spec (try_parse_float Qarith) float_member (fun _ => True) (fun s cur d H _ => try_float_spec s cur d H) float_none s 0%Q 1
              7 FUEL 0 (repeat (fofz Qarith 0) 7) H1 eq_refl ltac:(unfold FUEL; lia) (fun _ _ => I)) as (l & k & E & Hk & L & Kk & _ & M).
    change (10 * (1 + 0)) with (10 * 1) in E. rewrite E, !bind_OK. eexists. split; [reflexivity|]. cbn [to_name to_params].
    split; [exact Mn|]. split; [exact L|]. intros j Hj. specialize (M j). rewrite repeat_length in M. specialize (M ltac:(lia)).
    assert (Z0 : nth j (repeat (fofz Qarith 0) 7) 0%Q = 0%Q) by (do 7 (destruct j as [|j]; [reflexivity|]); lia).
    rewrite Z0 in M. exact M.
  - rewrite bind_OK. eexists. split; [reflexivity|]. cbn [to_name to_params]. split; [reflexivity|]. split; [reflexivity|].
    intros j Hj. rewrite (fld_none_next s 0 (1 + j)) by (assumption || lia). cbn [float_member].
    do 7 (destruct j as [|j]; [reflexivity|]). lia.
Qed.

Lemma option_cards_spec ti : forall cards dt i, 2 <= i \/ (i = 1 /\ ti = false) -> Forall padded cards -> exists os,
  dt_cards Qarith Qftoi dt cards i ti = OK (mkDT _ (dt_tranid dt) (dt_options dt ++ os) (dt_title dt)) /\ Forall2 option_meaning cards os.
Proof.
  induction cards as [|s cards IH]; intros dt i Hi P.
  - exists []. rewrite app_nil_r. split; [destruct dt; reflexivity|constructor].
  - inversion P as [|? ? P0 P1]; subst. destruct (option_card_spec dt s i ti Hi P0) as (o & E & M). cbn [dt_cards]. rewrite E, bind_OK.
    destruct (IH (mkDT _ (dt_tranid dt) (dt_options dt ++ [o]) (dt_title dt)) (i + 1) ltac:(left; lia) P1) as (os & E' & M'). rewrite E'.
    exists (o :: os). cbn [dt_tranid dt_options dt_title]. rewrite <- app_assoc. split; [reflexivity|constructor; assumption].
Qed.

Lemma dt_cards_spec cards ti : dt_cards_ok cards ti -> exists dt, key_parse_define_transformation Qarith Qftoi cards ti = OK dt /\ dt_meaning cards ti dt.
Proof.
  intros (Hc & Hp & R). unfold key_parse_define_transformation, dt_meaning. destruct cards as [|s0 cards].
  { exists (mkDT _ 0 [] None). split; [reflexivity|]. destruct ti; cbn; repeat split; constructor. }
  inversion Hc as [|? ? C0 Hc1]; subst. destruct ti.
  - destruct (whole_spec s0 C0) as (buf & t & E0 & B0 & T0). cbn [dt_cards]. unfold define_transformation_card at 1.
    rewrite Nat.eqb_refl. cbn zeta iota. rewrite E0, !bind_OK. cbn [dt_tranid dt_options].
    destruct cards as [|s1 cards].
    { eexists. split; [reflexivity|]. cbn. split; [exists t; auto|]. split; [reflexivity|constructor]. }
    inversion Hc1 as [|? ? C1 Hc2]; subst. cbn [dt_cards]. unfold define_transformation_card at 1.
    change (0 + 1 =? 0) with false. change (0 + 1 =? 1) with true. cbn [andb]. cbn zeta iota.
    destruct (first_field_spec s1 0%Z) as (v & Ev & Mv); [split; [assumption|exact R]|].
    cbn [dt_tranid]. rewrite Ev, !bind_OK. cbn [skipn] in Hp.
    destruct (option_cards_spec true cards (mkDT _ v [] (Some buf)) (0 + 1 + 1) ltac:(left; lia) Hp) as (os & Eo & Mo).
    cbn [dt_tranid dt_options dt_title app] in *. rewrite Eo. eexists. split; [reflexivity|]. cbn [dt_tranid dt_options dt_title skipn nth_error].
    split; [exists t; auto|]. split; [exact Mv|exact Mo].
  - cbn [dt_cards]. unfold define_transformation_card at 1. rewrite Nat.eqb_refl. cbn zeta iota.
    destruct (first_field_spec s0 0%Z) as (v & Ev & Mv); [split; [assumption|exact R]|].
    cbn [dt_tranid]. rewrite Ev, !bind_OK. cbn [skipn] in Hp.
    destruct (option_cards_spec false cards (mkDT _ v [] None) (0 + 1) ltac:(right; split; reflexivity) Hp) as (os & Eo & Mo).
    cbn [dt_tranid dt_options dt_title app] in *. rewrite Eo. eexists. split; [reflexivity|]. cbn [dt_tranid dt_options dt_title skipn].
    split; [reflexivity|]. split; [exact Mv|exact Mo].
Qed.
