(** * C16 and C99 in the arithmetic of float and double

    [rounded (ieee p) pw] is the arithmetic of the C type with [p] bits: every
    operation yields the number with [p] bits nearest to the exact result
    ([ieee_nearest], CardIeee.v); [pw] is what [pow] returns. *)
From Coq Require Import ZArith QArith Qpower Qabs Qfield Lqa Lia.
From Verif Require Import CBase CBaseFacts CardModel CardSpec CardProofs CardFloat CardIeee PropCard.
Open Scope nat_scope.
Open Scope list_scope.

(** The value behind the point. *)
Definition fraction (ds : list Z) : Q := (inject_Z (dec ds) / inject_Z (10 ^ Z.of_nat (length ds)))%Q.

Lemma text_parts f sg ip fr ex : float_text f sg ip fr ex -> (exists sgt, sign_text sgt sg) /\ digits ip /\
  (forall ds, fr = Some ds -> digits ds).
Proof.
  intros (b & sgt & frt & ext & t & _ & _ & S1 & I & F & _). split; [eauto|]. split; [assumption|].
  intros ds ->. destruct F as [[_ Q]|(ds' & _ & D & Q)]; congruence.
Qed.

Lemma float_point p pw s cur w sg ip ds : (1 <= p)%Z -> in_card s cur w ->
  float_text (field s cur w) sg ip (Some ds) None -> (dec ip < 2 ^ p)%Z -> (10 ^ Z.of_nat (length ds) < 2 ^ p)%Z ->
  exists v, card_parse_float_width (rounded (ieee p) pw) s cur w = OK (v, false) /\
    (v == inject_Z sg * ieee p (inject_Z (dec ip) + ieee p (fraction ds)))%Q.
Proof.
  intros P H T B C. destruct (text_parts _ _ _ _ _ T) as ((sgt & Sg) & I & D). specialize (D ds eq_refl).
  exists (fvalue (rounded (ieee p) pw) sg ip (Some ds) None). split; [apply float_accept; assumption|].
  unfold fvalue. rewrite (fmant_few p pw P ip ds I D B C).
  change (fmul (rounded (ieee p) pw)) with (fun x y => ieee p (x * y)%Q). cbv beta.
  change (fofz (rounded (ieee p) pw) sg) with (inject_Z sg).
  eapply sign_few; [assumption|exact Sg|]. apply (ieee_nearest p _ P).
Qed.

(** A field [ip.ds] with few digits: the fraction is rounded, the sum is
    rounded, and nothing else. *)
Theorem C99_two_roundings p pw s cur w sg ip ds : (1 <= p)%Z -> in_card s cur w ->
  float_text (field s cur w) sg ip (Some ds) None -> (dec ip < 2 ^ p)%Z -> (10 ^ Z.of_nat (length ds) < 2 ^ p)%Z ->
  exists v f r, card_parse_float_width (rounded (ieee p) pw) s cur w = OK (v, false) /\
    nearest p (fraction ds) f /\ nearest p (inject_Z (dec ip) + f) r /\ (v == inject_Z sg * r)%Q.
Proof.
  intros P H T B C. destruct (float_point p pw s cur w sg ip ds P H T B C) as (v & R & V).
  exists v, (ieee p (fraction ds)), (ieee p (inject_Z (dec ip) + ieee p (fraction ds))).
  split; [assumption|]. split; [apply ieee_nearest; assumption|]. split; [apply ieee_nearest; assumption|exact V].
Qed.

(** A number below one is the nearest of all numbers of the type, and so is
    every number with a fraction the type can hold (12.5, 0.25, 100.0). *)
Theorem C99_nearest_partial p pw s cur w sg ip ds : (1 <= p)%Z -> in_card s cur w ->
  float_text (field s cur w) sg ip (Some ds) None -> (dec ip < 2 ^ p)%Z -> (10 ^ Z.of_nat (length ds) < 2 ^ p)%Z ->
  dec ip = 0%Z \/ representable p (fraction ds) ->
  exists v, card_parse_float_width (rounded (ieee p) pw) s cur w = OK (v, false) /\
    nearest p (float_value sg ip (Some ds) None) v.
Proof.
  intros P H T B C E. destruct (float_point p pw s cur w sg ip ds P H T B C) as (v & R & V).
  destruct (text_parts _ _ _ _ _ T) as ((sgt & Sg) & _).
  exists v. split; [assumption|]. set (x := (inject_Z (dec ip) + fraction ds)%Q).
  assert (Q1 : (ieee p (inject_Z (dec ip) + ieee p (fraction ds)) == ieee p x)%Q).
  { destruct E as [E|E].
    - rewrite (ieee_comp p _ (ieee p (fraction ds))) by (rewrite E; ring).
      rewrite (ieee_comp p x (fraction ds)) by (unfold x; rewrite E; ring).
      apply ieee_exact; [assumption|]. apply (ieee_nearest p _ P).
    - rewrite (ieee_comp p _ x); [reflexivity|]. unfold x. rewrite (ieee_exact p _ P E). reflexivity. }
  assert (V2 : (float_value sg ip (Some ds) None == inject_Z sg * x)%Q) by (unfold float_value, x, fraction; ring).
  assert (V3 : (v == ieee p (float_value sg ip (Some ds) None))%Q).
  { rewrite V, Q1, (ieee_comp p _ _ V2). destruct Sg as [[_ ->]|[[_ ->]|[_ ->]]].
    - rewrite (ieee_comp p (inject_Z 1 * x) x) by ring. ring.
    - rewrite (ieee_comp p (inject_Z 1 * x) x) by ring. ring.
    - rewrite (ieee_comp p (inject_Z (-1) * x) (- x)) by ring. rewrite ieee_opp. ring. }
  destruct (ieee_nearest p (float_value sg ip (Some ds) None) P) as [N1 N2]. split.
  - apply representable_comp with (2 := N1). symmetry. exact V3.
  - intros z Hz. rewrite (Qabs_wd (v - float_value sg ip (Some ds) None) (ieee p (float_value sg ip (Some ds) None) - float_value sg ip (Some ds) None)) by (rewrite V3; reflexivity).
    apply N2. assumption.
Qed.

(** Whole numbers are exact. *)
Theorem C16_whole p pw s cur w sg ip fr : (1 <= p)%Z -> in_card s cur w ->
  float_text (field s cur w) sg ip fr None -> (dec ip < 2 ^ p)%Z ->
  match fr with None => True | Some ds => dec ds = 0%Z /\ (10 ^ Z.of_nat (length ds) < 2 ^ p)%Z end ->
  exists v, card_parse_float_width (rounded (ieee p) pw) s cur w = OK (v, false) /\ (v == inject_Z (sg * dec ip))%Q.
Proof.
  intros P H T B F. destruct (text_parts _ _ _ _ _ T) as ((sgt & Sg) & I & D).
  destruct fr as [ds|].
  - destruct F as [Z0 C]. destruct (float_point p pw s cur w sg ip ds P H T B C) as (v & R & V).
    exists v. split; [assumption|]. rewrite V, inject_Z_mult.
    assert (Fz : (ieee p (fraction ds) == 0)%Q) by (rewrite ieee_zero; [reflexivity|]; unfold fraction; rewrite Z0; unfold Qdiv; ring).
    rewrite (ieee_comp p _ (inject_Z (dec ip))) by (rewrite Fz; ring).
    rewrite ieee_int; [reflexivity|assumption|]. pose proof (dec_lt ip I). lia.
  - exists (fvalue (rounded (ieee p) pw) sg ip None None). split; [apply float_accept; assumption|].
    pose proof (dec_lt ip I) as L. unfold fvalue, fmant.
    pose proof (fint_few p pw P ip 0 (fofz (rounded (ieee p) pw) 0) I ltac:(lia) ltac:(reflexivity) B) as Q1. fold (dec ip) in Q1.
    change (fmul (rounded (ieee p) pw)) with (fun x y => ieee p (x * y)%Q). cbv beta.
    rewrite inject_Z_mult, <- Q1. eapply sign_few; [assumption|exact Sg|].
    apply representable_comp with (inject_Z (dec ip)); [symmetry; exact Q1|]. apply representable_int. lia.
Qed.

(** Float and double are roundings in the sense of C16_float_rounded. *)
Theorem C16_float_double : 
  rounding (Qpower 2 (-24)) (ieee 24) (powr 24) /\ rounding (Qpower 2 (-53)) (ieee 53) (powr 53).
Proof. split; [apply (ieee_rounding 24)|apply (ieee_rounding 53)]; lia. Qed.

(** Other numbers need not be the nearest: the two roundings of C99_two_roundings
    add up.  The double read from the field 1.14 is not the double nearest to
    1.14, which is 5134103575202365 / 2^52; and the float read from 1.18 is
    not the float nearest to 1.18. *)
Theorem C99_nearest_refuted :
  (exists v, card_parse_float_width (rounded (ieee 53) (powr 53)) (bs "1.14      ") 0 10 = OK (v, false) /\
     (v == 5134103575202366 # (2 ^ 52))%Q /\ ~ nearest 53 (114 # 100) v) /\
  (exists v, card_parse_float_width (rounded (ieee 24) (powr 24)) (bs "1.18      ") 0 10 = OK (v, false) /\
     (v == 9898558 # (2 ^ 23))%Q /\ ~ nearest 24 (118 # 100) v).
Proof.
  split; (eexists; split; [vm_compute; reflexivity|]; split; [vm_compute; reflexivity|]); intros [_ N].
  - specialize (N (inject_Z 5134103575202365 * Qpower 2 (-52))%Q).
    assert (R : representable 53 (inject_Z 5134103575202365 * Qpower 2 (-52))%Q) by (exists 5134103575202365%Z, (-52)%Z; split; reflexivity).
    specialize (N R). apply Qle_not_lt in N. apply N. vm_compute. reflexivity.
  - specialize (N (inject_Z 9898557 * Qpower 2 (-23))%Q).
    assert (R : representable 24 (inject_Z 9898557 * Qpower 2 (-23))%Q) by (exists 9898557%Z, (-23)%Z; split; reflexivity).
    specialize (N R). apply Qle_not_lt in N. apply N. vm_compute. reflexivity.
Qed.

(** The hypotheses are met, by a field below one and by a negative one. *)
Example C99_case : in_card (bs "    -12.50") 0 10 /\
  float_text (field (bs "    -12.50") 0 10) (-1) (bs "12") (Some (bs "50")) None /\
  (dec (bs "12") < 2 ^ 24)%Z /\ (10 ^ Z.of_nat (length (bs "50")) < 2 ^ 24)%Z /\ representable 24 (fraction (bs "50")) /\
  (exists v, card_parse_float_width (rounded (ieee 24) (powr 24)) (bs "    -12.50") 0 10 = OK (v, false) /\ (v == - (125 # 10))%Q) /\
  (exists v, card_parse_float_width (rounded (ieee 53) (powr 53)) (bs "0.1       ") 0 10 = OK (v, false) /\
     (v == 3602879701896397 # (2 ^ 55))%Q).
Proof.
  split; [split; [repeat constructor; simpl; lia|split; simpl; lia]|]. split.
  { exists (bs "    "), [MINUS], (bs ".50"), [], []. repeat split.
    - repeat constructor.
    - right; right; auto.
    - repeat constructor; simpl; lia.
    - right. exists (bs "50"). repeat split. repeat constructor; simpl; lia.
    - left; auto.
    - left; reflexivity.
    - left. discriminate. }
  split; [reflexivity|]. split; [reflexivity|]. split; [exists 1%Z, (-1)%Z; split; reflexivity|].
  split; (eexists; split; [vm_compute; reflexivity|vm_compute; reflexivity]).
Qed.

Print Assumptions C99_two_roundings.
Print Assumptions C99_nearest_partial.
Print Assumptions C16_whole.
Print Assumptions C16_float_double.
Print Assumptions C99_nearest_refuted.
