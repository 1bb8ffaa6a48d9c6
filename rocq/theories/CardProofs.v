(** * Proofs about card fields *)
From Verif Require Import CBase CBaseFacts StringModel StringProofs CardModel CardSpec.

Lemma cget_field s cur w a c b : in_card s cur w -> field s cur w = a ++ c :: b ->
  cur + length a < cur + w /\ cget s (cur + length a) = OK c /\
  inc8 (cur + length a) = cur + length (a ++ [c]) /\ (0 < c < 256)%Z.
Proof.
  intros (Hs & Hc & Hw) E.
  assert (L : length (field s cur w) = length a + S (length b)) by (rewrite E, app_length; reflexivity).
  unfold field in L. rewrite firstn_length, skipn_length in L.
  assert (N : nth (length a) (field s cur w) 0%Z = c) by (rewrite E; apply nth_middle).
  assert (N2 : nth (length a) (field s cur w) 0%Z = nth (cur + length a) s 0%Z).
  { unfold field. assert (X : forall (l : list Z) n k, k < n -> nth k (firstn n l) 0%Z = nth k l 0%Z).
    { clear. induction l as [|x l IH]; intros n k H; destruct n; try lia; simpl; [destruct k; reflexivity|].
      destruct k; [reflexivity|]. apply IH. lia. }
    rewrite X by lia. clear. revert cur. induction s as [|x s IH]; intros cur; destruct cur; simpl; try reflexivity.
    - destruct (length a); reflexivity.
    - apply IH. }
  split; [lia|]. split; [rewrite cget_nth0 by lia; congruence|]. split.
  - unfold inc8. rewrite app_length. simpl length. rewrite Nat.mod_small by lia. lia.
  - rewrite <- N, N2. apply cstr_nth_range; [assumption|lia].
Qed.

Lemma cget_field_end s cur w a : in_card s cur w -> field s cur w = a ->
  cur + length a = cur + w \/ (cur + length a < cur + w /\ cget s (cur + length a) = OK 0%Z).
Proof.
  intros (Hs & Hc & Hw) E.
  assert (L : length (field s cur w) = length a) by congruence.
  unfold field in L. rewrite firstn_length, skipn_length in L.
  destruct (Nat.eq_dec (length a) w) as [|n]; [left; lia|right]. split; [lia|].
  replace (cur + length a) with (length s) by lia. apply cget_end.
Qed.

Lemma field_length s cur w a b : in_card s cur w -> field s cur w = a ++ b -> length a <= w /\ cur + length a <= length s.
Proof.
  intros (Hs & Hc & Hw) E.
  assert (L : length (field s cur w) = length a + length b) by (rewrite E, app_length; reflexivity).
  unfold field in L. rewrite firstn_length, skipn_length in L. lia.
Qed.

Lemma cget_any s cur w a b : in_card s cur w -> field s cur w = a ++ b ->
  exists c, cget s (cur + length a) = OK c /\ match b with [] => cur + length a = cur + w \/ c = 0%Z | x :: _ => c = x /\ c <> 0%Z end.
Proof.
  intros H E. destruct b as [|x b].
  - rewrite app_nil_r in E. destruct (cget_field_end s cur w a H E) as [Q|[Q1 Q2]].
    + destruct (field_length s cur w a [] H ltac:(rewrite app_nil_r; exact E)) as [_ L].
      rewrite cget_nth0 by assumption. eauto.
    + eauto.
  - destruct (cget_field s cur w a x b H E) as (_ & Q & _ & Q2). exists x. split; [assumption|]. split; [reflexivity|lia].
Qed.

Definition stops (p : Z -> bool) (c : list Z) : Prop := match c with [] => True | x :: _ => p x = false end.

Lemma bscan_spec s cur w p (Hp : p 0%Z = false) : forall fuel a b c, in_card s cur w ->
  field s cur w = a ++ b ++ c -> forallb p b = true -> stops p c -> length b < fuel ->
  bscan fuel s (cur + w) p (cur + length a) = OK (cur + length (a ++ b)).
Proof.
  induction fuel as [|fuel IH]; intros a b c H E Hb Hc Hf; [lia|]. cbn [bscan].
  destruct b as [|x b].
  - rewrite app_nil_r. simpl app in E.
    destruct c as [|y c].
    + rewrite app_nil_r in E. destruct (cget_field_end s cur w a H E) as [Q|[Q1 Q2]].
      * rewrite Q. rewrite Nat.ltb_irrefl. rewrite <- Q. reflexivity.
      * rewrite Q2. destruct (Nat.ltb_spec (cur + length a) (cur + w)); [|reflexivity]. cbn [bind]. rewrite Hp. reflexivity.
    + destruct (cget_field s cur w a y c H E) as (Q1 & Q2 & _ & _). rewrite Q2.
      destruct (Nat.ltb_spec (cur + length a) (cur + w)); [|lia]. cbn [bind]. simpl in Hc. rewrite Hc. reflexivity.
  - simpl in Hb. apply andb_true_iff in Hb as [Hx Hb].
    destruct (cget_field s cur w a x (b ++ c) H E) as (Q1 & Q2 & Q3 & _). rewrite Q2, Q3.
    destruct (Nat.ltb_spec (cur + length a) (cur + w)); [|lia]. cbn [bind]. rewrite Hx.
    replace (a ++ x :: b) with ((a ++ [x]) ++ b) by (rewrite <- app_assoc; reflexivity).
    apply (IH (a ++ [x]) b c); auto; [rewrite E, <- app_assoc; reflexivity|simpl in Hf; lia].
Qed.

Lemma pscan_spec s cur w p (Hp : p 0%Z = false) : forall fuel a b c, in_card s cur w ->
  field s cur w = a ++ b ++ c -> forallb p b = true -> stops p c -> length b < fuel ->
  pscan fuel s (cur + w) p (cur + length a) = OK (cur + length (a ++ b)).
Proof.
  induction fuel as [|fuel IH]; intros a b c H E Hb Hc Hf; [lia|]. cbn [pscan].
  destruct b as [|x b].
  - rewrite app_nil_r. simpl app in E.
    destruct c as [|y c].
    + destruct (cget_any s cur w a [] H E) as (z & -> & Q). cbn [bind].
      destruct Q as [Q|Q]; [rewrite Q, Nat.ltb_irrefl, andb_false_r; rewrite <- Q; reflexivity|].
      subst z. rewrite Hp. reflexivity.
    + destruct (cget_field s cur w a y c H E) as (Q1 & Q2 & _ & _). rewrite Q2. cbn [bind]. simpl in Hc. rewrite Hc. reflexivity.
  - simpl in Hb. apply andb_true_iff in Hb as [Hx Hb].
    destruct (cget_field s cur w a x (b ++ c) H E) as (Q1 & Q2 & Q3 & _). rewrite Q2, Q3. cbn [bind].
    destruct (Nat.ltb_spec (cur + length a) (cur + w)); [|lia]. rewrite Hx. cbn [andb].
    replace (a ++ x :: b) with ((a ++ [x]) ++ b) by (rewrite <- app_assoc; reflexivity).
    apply (IH (a ++ [x]) b c); auto; [rewrite E, <- app_assoc; reflexivity|simpl in Hf; lia].
Qed.

Lemma field_fuel s cur w a b c : in_card s cur w -> field s cur w = a ++ b ++ c -> length b < FUEL.
Proof.
  intros H E. destruct (field_length s cur w (a ++ b) c H ltac:(rewrite E, <- app_assoc; reflexivity)) as [L _].
  rewrite app_length in L. destruct H as (_ & _ & H). unfold FUEL. lia.
Qed.

(** ** digits *)
Lemma is_digit_iff c : is_digit c = true <-> (48 <= c <= 57)%Z.
Proof. unfold is_digit. lia. Qed.
Lemma digits_forallb l : digits l <-> forallb is_digit l = true.
Proof.
  unfold digits. rewrite Forall_forall, forallb_forall. split; intros H x Hx; specialize (H x Hx); apply is_digit_iff; assumption.
Qed.
Lemma blanks_forallb l : blanks l <-> forallb (fun c => c =? SPACE)%Z l = true.
Proof.
  unfold blanks. rewrite Forall_forall, forallb_forall. split; intros H x Hx; specialize (H x Hx); lia.
Qed.

Definition dec_from (acc : Z) (l : list Z) : Z := fold_left (fun acc c => acc * 10 + (c - 48))%Z l acc.

Lemma dec_from_ge l : forall acc, digits l -> (0 <= acc)%Z -> (acc <= dec_from acc l)%Z.
Proof.
  induction l as [|c l IH]; intros acc H Ha; simpl; [lia|]. inversion H; subst.
  specialize (IH (acc * 10 + (c - 48))%Z H3 ltac:(lia)). unfold dec_from in *. lia.
Qed.

Lemma dec_from_eq l : forall acc, dec_from acc l = (acc * 10 ^ Z.of_nat (length l) + dec l)%Z.
Proof.
  induction l as [|c l IH]; intros acc.
  - simpl. unfold dec. simpl. lia.
  - simpl length. rewrite Nat2Z.inj_succ, Z.pow_succ_r by lia.
    change (dec_from acc (c :: l)) with (dec_from (acc * 10 + (c - 48)) l).
    change (dec (c :: l)) with (dec_from (0 * 10 + (c - 48)) l).
    rewrite (IH (acc * 10 + (c - 48))%Z), (IH (0 * 10 + (c - 48))%Z). lia.
Qed.

Lemma dec_lt l : digits l -> (0 <= dec l < 10 ^ Z.of_nat (length l))%Z.
Proof.
  induction l as [|c l IH]; intros H; [unfold dec; simpl; lia|].
  inversion H; subst. specialize (IH H3).
  change (dec (c :: l)) with (dec_from (0 * 10 + (c - 48)) l). rewrite dec_from_eq.
  simpl length. rewrite Nat2Z.inj_succ, Z.pow_succ_r by lia. nia.
Qed.

Lemma stops_digit_end t : ends t -> stops is_digit t.
Proof. intros [->|[t' ->]]; reflexivity. Qed.

Lemma int_digits_spec s cur w : forall fuel ds a t acc, in_card s cur w ->
  field s cur w = a ++ ds ++ t -> digits ds -> stops is_digit t -> length ds < fuel ->
  (0 <= acc)%Z -> (dec_from acc ds < 2 ^ 63)%Z ->
  int_digits fuel s (cur + w) (cur + length a) acc =
    OK (match t with [] => Some (dec_from acc ds) | c :: _ => if (c =? SPACE)%Z then Some (dec_from acc ds) else None end).
Proof.
  induction fuel as [|fuel IH]; intros ds a t acc H E Hd Ht Hf Ha Hv; [lia|]. cbn [int_digits].
  destruct ds as [|x ds].
  - simpl app in E. cbn [dec_from fold_left]. destruct t as [|y t].
    + rewrite app_nil_r in E. destruct (cget_field_end s cur w a H E) as [Q|[Q1 Q2]].
      * rewrite Q, Nat.ltb_irrefl. reflexivity.
      * rewrite Q2. destruct (Nat.ltb_spec (cur + length a) (cur + w)); [|reflexivity]. reflexivity.
    + destruct (cget_field s cur w a y t H E) as (Q1 & Q2 & _ & Q4). rewrite Q2.
      destruct (Nat.ltb_spec (cur + length a) (cur + w)); [|lia]. cbn [bind]. unfold NUL.
      destruct (Z.eqb_spec y 0); [lia|]. simpl in Ht. rewrite Ht. destruct (y =? SPACE)%Z; reflexivity.
  - inversion Hd as [|? ? Hx Hds]; subst.
    destruct (cget_field s cur w a x (ds ++ t) H E) as (Q1 & Q2 & Q3 & Q4). rewrite Q2, Q3.
    destruct (Nat.ltb_spec (cur + length a) (cur + w)); [|lia]. cbn [bind]. unfold NUL.
    destruct (Z.eqb_spec x 0); [lia|]. rewrite (proj2 (is_digit_iff x) Hx).
    assert (G : (acc * 10 + (x - 48) <= dec_from acc (x :: ds))%Z) by (apply (dec_from_ge ds); [assumption|lia]).
    destruct (Z.ltb_spec (acc * 10 + (x - 48)) (2 ^ 63)); [|lia].
    rewrite (IH ds (a ++ [x]) t); auto; [rewrite E, <- app_assoc; reflexivity|simpl in Hf; lia|lia].
Qed.

Lemma stops_blank_digit ds t : digits ds -> (ds <> [] \/ stops (fun c => c =? SPACE)%Z t) -> stops (fun c => c =? SPACE)%Z (ds ++ t).
Proof.
  intros H Hc. destruct ds as [|x ds]; [destruct Hc as [Hc|Hc]; [congruence|exact Hc]|].
  inversion H; subst. simpl. unfold SPACE. lia.
Qed.

(** the integer parser on [blanks ++ sign ++ digits ++ t] *)
Lemma parse_int_spec s cur w b neg ds t : in_card s cur w ->
  field s cur w = b ++ neg ++ ds ++ t -> blanks b -> neg = [] \/ neg = [MINUS] -> digits ds -> stops is_digit t ->
  neg <> [] \/ ds <> [] -> (dec ds < 2 ^ 63)%Z ->
  card_parse_int_width s cur w =
    OK (if match t with [] => true | c :: _ => (c =? SPACE)%Z end
        then Some (dec ds * match neg with [] => 1 | _ => -1 end)%Z else None).
Proof.
  intros H E Hb Hneg Hd Ht Hne Hv. unfold card_parse_int_width.
  assert (St : stops (fun c => c =? SPACE)%Z (neg ++ ds ++ t)).
  { destruct Hneg as [-> | ->]; [|reflexivity]. apply (stops_blank_digit ds t); [assumption|]. left. destruct Hne; congruence. }
  pose proof (bscan_spec s cur w (fun c => c =? SPACE)%Z eq_refl FUEL [] b (neg ++ ds ++ t) H E
     (proj1 (blanks_forallb b) Hb) St (field_fuel s cur w [] b _ H E)) as Bs.
  simpl length in Bs. rewrite Nat.add_0_r in Bs. simpl app in Bs. rewrite Bs. cbn [bind].
  destruct (neg ++ ds) as [|x rest] eqn:En.
  { apply app_eq_nil in En as [-> ->]. destruct Hne; congruence. }
  assert (E1 : field s cur w = b ++ x :: rest ++ t) by (rewrite E, (app_assoc neg), En; reflexivity).
  destruct (cget_field s cur w b x (rest ++ t) H E1) as (Q1 & Q2 & Q3 & Q4).
  destruct (Nat.eqb_spec (cur + length b) (cur + w)); [lia|]. rewrite Q2. cbn [bind]. unfold NUL.
  destruct (Z.eqb_spec x 0); [lia|].
  assert (R : int_digits FUEL s (cur + w) (cur + length (b ++ neg)) 0 = OK (match t with [] => Some (dec_from 0 ds) | c :: _ => if (c =? SPACE)%Z then Some (dec_from 0 ds) else None end)).
  { apply int_digits_spec; auto; [rewrite E, <- app_assoc; reflexivity| |lia].
    eapply (field_fuel s cur w (b ++ neg) ds t); [assumption|]. rewrite E, <- app_assoc. reflexivity. }
  destruct Hneg as [-> | ->].
  - rewrite app_nil_r in R. simpl in En. subst ds. inversion Hd; subst.
    destruct (Z.eqb_spec x MINUS) as [Em|_]; [unfold MINUS in Em; lia|]. rewrite R. cbn [bind].
    destruct t as [|c t]; [reflexivity|]. destruct (c =? SPACE)%Z; reflexivity.
  - simpl in En. injection En as <- _. rewrite Z.eqb_refl, Q3, R. cbn [bind].
    destruct t as [|c t]; [reflexivity|]. destruct (c =? SPACE)%Z; reflexivity.
Qed.

(** every field has this shape or is blank or starts with something else *)
Lemma parse_int_blank s cur w : in_card s cur w -> blanks (field s cur w) -> card_parse_int_width s cur w = OK None.
Proof.
  intros H Hb. unfold card_parse_int_width. set (f := field s cur w) in *.
  pose proof (bscan_spec s cur w (fun c => c =? SPACE)%Z eq_refl FUEL [] f [] H
     ltac:(simpl; rewrite app_nil_r; reflexivity) (proj1 (blanks_forallb f) Hb) I
     ltac:(apply (field_fuel s cur w [] f []); [assumption|simpl; rewrite app_nil_r; reflexivity])) as Bs.
  simpl length in Bs. rewrite Nat.add_0_r in Bs. simpl app in Bs. rewrite Bs. cbn [bind].
  destruct (cget_field_end s cur w f H eq_refl) as [Q|[Q1 Q2]].
  - rewrite Q, Nat.eqb_refl. reflexivity.
  - destruct (Nat.eqb_spec (cur + length f) (cur + w)); [lia|]. rewrite Q2. reflexivity.
Qed.

Lemma split_span p (l : list Z) : exists a b, l = a ++ b /\ forallb p a = true /\ stops p b.
Proof.
  exists (fst (span p l)), (snd (span p l)). split; [symmetry; apply span_app|]. split; [apply span_fst|].
  pose proof (span_snd p l) as H. destruct (snd (span p l)); [exact I|exact H].
Qed.

Lemma int_shape f : exists b neg ds t, f = b ++ neg ++ ds ++ t /\ blanks b /\ (neg = [] \/ neg = [MINUS]) /\ digits ds /\ stops is_digit t /\
  (neg = [] -> ds = [] -> stops (fun c => c =? SPACE)%Z t /\ stops (fun c => c =? MINUS)%Z t).
Proof.
  destruct (split_span (fun c => c =? SPACE)%Z f) as (b & r & -> & Hb & Hr).
  destruct r as [|x r].
  - exists b, [], [], []. simpl. repeat split; auto; [apply blanks_forallb; assumption|constructor].
  - destruct (Z.eqb_spec x MINUS) as [->|n].
    + destruct (split_span is_digit r) as (ds & t & -> & Hd & Ht).
      exists b, [MINUS], ds, t. repeat split; auto; [apply blanks_forallb; assumption|apply digits_forallb; assumption|discriminate|discriminate].
    + destruct (split_span is_digit (x :: r)) as (ds & t & E & Hd & Ht).
      exists b, [], ds, t. rewrite E. repeat split; auto; [apply blanks_forallb; assumption|apply digits_forallb; assumption| |];
        subst ds; simpl in E; subst t; simpl in *; [assumption|apply Z.eqb_neq; assumption].
Qed.

Lemma parse_int_foreign s cur w b x t : in_card s cur w -> field s cur w = b ++ x :: t -> blanks b ->
  x <> SPACE -> x <> MINUS -> is_digit x = false -> card_parse_int_width s cur w = OK None.
Proof.
  intros H E Hb N1 N2 N3. unfold card_parse_int_width.
  pose proof (bscan_spec s cur w (fun c => c =? SPACE)%Z eq_refl FUEL [] b (x :: t) H E
     (proj1 (blanks_forallb b) Hb) ltac:(simpl; apply Z.eqb_neq; assumption) (field_fuel s cur w [] b _ H E)) as Bs.
  simpl length in Bs. rewrite Nat.add_0_r in Bs. simpl app in Bs. rewrite Bs. cbn [bind].
  destruct (cget_field s cur w b x t H E) as (Q1 & Q2 & Q3 & Q4).
  destruct (Nat.eqb_spec (cur + length b) (cur + w)); [lia|]. rewrite Q2. cbn [bind]. unfold NUL.
  destruct (Z.eqb_spec x 0); [lia|]. destruct (Z.eqb_spec x MINUS); [congruence|].
  rewrite (int_digits_spec s cur w FUEL [] b (x :: t) 0 H E); auto; try (simpl; lia); [|constructor|unfold FUEL; simpl; lia].
  destruct (Z.eqb_spec x SPACE); [congruence|reflexivity].
Qed.

(** ** overflow *)
Lemma int_digits_overflow s cur w : forall fuel ds a t acc, in_card s cur w ->
  field s cur w = a ++ ds ++ t -> digits ds -> length ds < fuel ->
  (0 <= acc < 2 ^ 63)%Z -> (2 ^ 63 <= dec_from acc ds)%Z ->
  int_digits fuel s (cur + w) (cur + length a) acc = UB.
Proof.
  induction fuel as [|fuel IH]; intros ds a t acc H E Hd Hf Ha Hv; [lia|]. cbn [int_digits].
  destruct ds as [|x ds].
  - cbn [dec_from fold_left] in Hv. lia.
  - inversion Hd as [|? ? Hx Hds]; subst.
    destruct (cget_field s cur w a x (ds ++ t) H E) as (Q1 & Q2 & Q3 & Q4). rewrite Q2, Q3.
    destruct (Nat.ltb_spec (cur + length a) (cur + w)); [|lia]. cbn [bind]. unfold NUL.
    destruct (Z.eqb_spec x 0); [lia|]. rewrite (proj2 (is_digit_iff x) Hx).
    destruct (Z.ltb_spec (acc * 10 + (x - 48)) (2 ^ 63)); [|reflexivity].
    apply (IH ds (a ++ [x]) t); auto; [rewrite E, <- app_assoc; reflexivity|simpl in Hf; lia|lia].
Qed.

Lemma int_text_accept s cur w v : in_card s cur w -> int_text (field s cur w) v -> (- 2 ^ 63 < v < 2 ^ 63)%Z ->
  card_parse_int_width s cur w = OK (Some v).
Proof.
  intros H (b & neg & ds & t & E & Hb & Hd & Ht & Hn) Hv.
  pose proof (dec_lt ds Hd) as D.
  rewrite (parse_int_spec s cur w b neg ds t H E Hb); auto.
  - assert (X : match t with [] => true | c :: _ => (c =? SPACE)%Z end = true) by (destruct Ht as [->|[t' ->]]; reflexivity).
    rewrite X. f_equal. f_equal. destruct Hn as [(-> & _ & ->)|(-> & ->)]; lia.
  - destruct Hn as [(-> & _ & _)|(-> & _)]; auto.
  - apply stops_digit_end; assumption.
  - destruct Hn as [(_ & Q & _)|(-> & _)]; [auto|left; discriminate].
  - destruct Hn as [(_ & _ & ->)|(_ & ->)]; lia.
Qed.


Lemma parse_int_overflow s cur w b neg ds t : in_card s cur w ->
  field s cur w = b ++ neg ++ ds ++ t -> blanks b -> neg = [] \/ neg = [MINUS] -> digits ds ->
  (2 ^ 63 <= dec ds)%Z -> card_parse_int_width s cur w = UB.
Proof.
  intros H E Hb Hneg Hd Hv. unfold card_parse_int_width.
  assert (Nd : ds <> []) by (intros ->; unfold dec in Hv; simpl in Hv; lia).
  assert (St : stops (fun c => c =? SPACE)%Z (neg ++ ds ++ t)).
  { destruct Hneg as [-> | ->]; [|reflexivity]. apply (stops_blank_digit ds t); auto. }
  pose proof (bscan_spec s cur w (fun c => c =? SPACE)%Z eq_refl FUEL [] b (neg ++ ds ++ t) H E
     (proj1 (blanks_forallb b) Hb) St (field_fuel s cur w [] b _ H E)) as Bs.
  simpl length in Bs. rewrite Nat.add_0_r in Bs. simpl app in Bs. rewrite Bs. cbn [bind].
  destruct (neg ++ ds) as [|x rest] eqn:En; [apply app_eq_nil in En as [_ En]; contradiction|].
  assert (E1 : field s cur w = b ++ x :: rest ++ t) by (rewrite E, (app_assoc neg), En; reflexivity).
  destruct (cget_field s cur w b x (rest ++ t) H E1) as (Q1 & Q2 & Q3 & Q4).
  destruct (Nat.eqb_spec (cur + length b) (cur + w)); [lia|]. rewrite Q2. cbn [bind]. unfold NUL.
  destruct (Z.eqb_spec x 0); [lia|].
  assert (R : int_digits FUEL s (cur + w) (cur + length (b ++ neg)) 0 = UB).
  { apply (int_digits_overflow s cur w FUEL ds (b ++ neg) t); auto; [rewrite E, <- app_assoc; reflexivity| |lia].
    eapply (field_fuel s cur w (b ++ neg) ds t); [assumption|]. rewrite E, <- app_assoc. reflexivity. }
  destruct Hneg as [-> | ->].
  - rewrite app_nil_r in R. simpl in En. subst ds. inversion Hd; subst.
    destruct (Z.eqb_spec x MINUS) as [Em|_]; [unfold MINUS in Em; lia|]. rewrite R. reflexivity.
  - simpl in En. injection En as <- _. rewrite Z.eqb_refl, Q3, R. reflexivity.
Qed.

(** the integer parser on any field: it accepts exactly the integer texts *)
Lemma parse_int_some s cur w v : in_card s cur w -> card_parse_int_width s cur w = OK (Some v) ->
  int_text (field s cur w) v /\ (- 2 ^ 63 < v < 2 ^ 63)%Z.
Proof.
  intros H R. destruct (int_shape (field s cur w)) as (b & neg & ds & t & E & Hb & Hn & Hd & Ht & Hne).
  destruct (Z_lt_le_dec (dec ds) (2 ^ 63)) as [L|L]; [|rewrite (parse_int_overflow s cur w b neg ds t) in R; auto; discriminate].
  assert (C : (neg <> [] \/ ds <> []) \/ (neg = [] /\ ds = [])).
  { destruct neg; [|left; left; discriminate]. destruct ds; [right; auto|left; right; discriminate]. }
  destruct C as [C|[-> ->]].
  - rewrite (parse_int_spec s cur w b neg ds t) in R; auto.
    pose proof (dec_lt ds Hd) as D.
    assert (T : ends t).
    { destruct t as [|c t]; [left; reflexivity|]. destruct (Z.eqb_spec c SPACE); [right; subst; eauto|discriminate]. }
    assert (X : match t with [] => true | c :: _ => (c =? SPACE)%Z end = true) by (destruct T as [->|[t' ->]]; reflexivity).
    rewrite X in R. injection R as <-. split.
    + exists b, neg, ds, t. repeat split; auto. destruct Hn as [-> | ->]; [left|right]; repeat split; try lia.
      destruct C; congruence.
    + destruct Hn as [-> | ->]; lia.
  - destruct (Hne eq_refl eq_refl) as [T1 T2]. destruct t as [|c t].
    + rewrite parse_int_blank in R; [discriminate|assumption|]. rewrite E. simpl. rewrite app_nil_r. assumption.
    + simpl in *. rewrite (parse_int_foreign s cur w b c t) in R; [discriminate| | | | | |]; auto.
      * intros ->. discriminate.
      * intros ->. discriminate.
Qed.

Lemma parse_int_no_ub s cur w : in_card s cur w -> w <= 18 -> exists o, card_parse_int_width s cur w = OK o.
Proof.
  intros H W. destruct (int_shape (field s cur w)) as (b & neg & ds & t & E & Hb & Hn & Hd & Ht & Hne).
  assert (L : (dec ds < 2 ^ 63)%Z).
  { pose proof (dec_lt ds Hd) as D.
    destruct (field_length s cur w (b ++ neg ++ ds) t H ltac:(rewrite E, <- !app_assoc; reflexivity)) as [L _].
    rewrite !app_length in L.
    assert (10 ^ Z.of_nat (length ds) <= 10 ^ 18)%Z by (apply Z.pow_le_mono_r; lia). lia. }
  assert (C : (neg <> [] \/ ds <> []) \/ (neg = [] /\ ds = [])).
  { destruct neg; [|left; left; discriminate]. destruct ds; [right; auto|left; right; discriminate]. }
  destruct C as [C|[-> ->]].
  - rewrite (parse_int_spec s cur w b neg ds t); eauto.
  - destruct (Hne eq_refl eq_refl) as [T1 T2]. destruct t as [|c t].
    + rewrite parse_int_blank; [eauto|assumption|]. rewrite E. simpl. rewrite app_nil_r. assumption.
    + simpl in *. rewrite (parse_int_foreign s cur w b c t); eauto.
      * intros ->. discriminate.
      * intros ->. discriminate.
Qed.

(** ** floats *)
Section FloatArith.
Variable A : farith.

Definition fint (acc : F A) (l : list Z) : F A :=
  fold_left (fun r c => fadd A (fmul A r (fofz A 10)) (fofz A (c - 48))) l acc.
Definition fpow (acc : F A) (l : list Z) : F A := fold_left (fun r _ => fmul A r (fofz A 10)) l acc.

Lemma float_int_spec s cur w sign : forall fuel ds a t acc has, in_card s cur w ->
  field s cur w = a ++ ds ++ t -> digits ds -> stops is_digit t -> length ds < fuel ->
  float_int A fuel s (cur + w) (cur + length a) acc has sign =
    OK (let ok := inr (cur + length (a ++ ds), fint acc ds, match ds with [] => has | _ => true end) in
        match t with
        | [] => ok
        | c :: _ => if (c =? DOT)%Z || is_e c then ok
                    else if (c =? SPACE)%Z then inl (fmul A (fint acc ds) sign, false)
                    else inl (fofz A 0, true)
        end).
Proof.
  induction fuel as [|fuel IH]; intros ds a t acc has H E Hd Ht Hf; [lia|]. cbn [float_int].
  destruct ds as [|x ds].
  - simpl app in E. rewrite app_nil_r. cbn [fint fold_left]. destruct t as [|y t].
    + rewrite app_nil_r in E. destruct (cget_field_end s cur w a H E) as [Q|[Q1 Q2]].
      * rewrite Q, Nat.ltb_irrefl. reflexivity.
      * rewrite Q2. destruct (Nat.ltb_spec (cur + length a) (cur + w)); [|reflexivity]. reflexivity.
    + destruct (cget_field s cur w a y t H E) as (Q1 & Q2 & _ & Q4). rewrite Q2.
      destruct (Nat.ltb_spec (cur + length a) (cur + w)); [|lia]. cbn [bind]. unfold NUL.
      destruct (Z.eqb_spec y 0); [lia|]. cbn [orb]. simpl in Ht. rewrite Ht.
      destruct ((y =? DOT)%Z || is_e y); [reflexivity|]. destruct (y =? SPACE)%Z; reflexivity.
  - inversion Hd as [|? ? Hx Hds]; subst.
    destruct (cget_field s cur w a x (ds ++ t) H E) as (Q1 & Q2 & Q3 & Q4). rewrite Q2, Q3.
    destruct (Nat.ltb_spec (cur + length a) (cur + w)); [|lia]. cbn [bind]. unfold NUL.
    destruct (Z.eqb_spec x 0); [lia|].
    assert (X1 : (x =? DOT)%Z = false) by (unfold DOT; lia).
    assert (X2 : is_e x = false) by (unfold is_e; lia).
    rewrite X1, X2, (proj2 (is_digit_iff x) Hx). cbn [orb].
    rewrite (IH ds (a ++ [x]) t); auto; [|rewrite E, <- app_assoc; reflexivity|simpl in Hf; lia].
    rewrite <- app_assoc. simpl app. destruct ds; reflexivity.
Qed.

Lemma float_frac_spec s cur w result sign : forall fuel ds a t fr ex, in_card s cur w ->
  field s cur w = a ++ ds ++ t -> digits ds -> stops is_digit t -> length ds < fuel ->
  float_frac A fuel s (cur + w) (cur + length a) result fr ex sign =
    OK (let ok := inr (cur + length (a ++ ds), fint fr ds, fpow ex ds) in
        match t with
        | [] => ok
        | c :: _ => if is_e c then ok
                    else if (c =? SPACE)%Z then inl (fmul A (fadd A result (fdiv A (fint fr ds) (fpow ex ds))) sign, false)
                    else inl (fofz A 0, true)
        end).
Proof.
  induction fuel as [|fuel IH]; intros ds a t fr ex H E Hd Ht Hf; [lia|]. cbn [float_frac].
  destruct ds as [|x ds].
  - simpl app in E. rewrite app_nil_r. cbn [fint fpow fold_left]. destruct t as [|y t].
    + rewrite app_nil_r in E. destruct (cget_field_end s cur w a H E) as [Q|[Q1 Q2]].
      * rewrite Q, Nat.ltb_irrefl. reflexivity.
      * rewrite Q2. destruct (Nat.ltb_spec (cur + length a) (cur + w)); [|reflexivity]. reflexivity.
    + destruct (cget_field s cur w a y t H E) as (Q1 & Q2 & _ & Q4). rewrite Q2.
      destruct (Nat.ltb_spec (cur + length a) (cur + w)); [|lia]. cbn [bind]. unfold NUL.
      destruct (Z.eqb_spec y 0); [lia|]. cbn [orb]. simpl in Ht. rewrite Ht.
      destruct (is_e y); [reflexivity|]. destruct (y =? SPACE)%Z; reflexivity.
  - inversion Hd as [|? ? Hx Hds]; subst.
    destruct (cget_field s cur w a x (ds ++ t) H E) as (Q1 & Q2 & Q3 & Q4). rewrite Q2, Q3.
    destruct (Nat.ltb_spec (cur + length a) (cur + w)); [|lia]. cbn [bind]. unfold NUL.
    destruct (Z.eqb_spec x 0); [lia|].
    assert (X2 : is_e x = false) by (unfold is_e; lia).
    rewrite X2, (proj2 (is_digit_iff x) Hx). cbn [orb].
    rewrite (IH ds (a ++ [x]) t); auto; [|rewrite E, <- app_assoc; reflexivity|simpl in Hf; lia].
    rewrite <- app_assoc. reflexivity.
Qed.
End FloatArith.

Lemma exp_digits_spec s cur w : forall fuel ds a t acc has, in_card s cur w ->
  field s cur w = a ++ ds ++ t -> digits ds -> stops is_digit t -> length ds < fuel ->
  (0 <= acc)%Z -> (dec_from acc ds < 2 ^ 31)%Z -> has = true \/ ds <> [] ->
  exp_digits fuel s (cur + w) (cur + length a) acc has =
    OK (match t with [] => Some (dec_from acc ds, true)
        | c :: _ => if (c =? SPACE)%Z then Some (dec_from acc ds, true) else None end).
Proof.
  induction fuel as [|fuel IH]; intros ds a t acc has H E Hd Ht Hf Ha Hv Hh; [lia|]. cbn [exp_digits].
  destruct ds as [|x ds].
  - destruct Hh as [-> | Hh]; [|congruence].
    simpl app in E. cbn [dec_from fold_left]. destruct t as [|y t].
    + rewrite app_nil_r in E. destruct (cget_field_end s cur w a H E) as [Q|[Q1 Q2]].
      * rewrite Q, Nat.ltb_irrefl. reflexivity.
      * rewrite Q2. destruct (Nat.ltb_spec (cur + length a) (cur + w)); [|reflexivity]. reflexivity.
    + destruct (cget_field s cur w a y t H E) as (Q1 & Q2 & _ & Q4). rewrite Q2.
      destruct (Nat.ltb_spec (cur + length a) (cur + w)); [|lia]. cbn [bind]. unfold NUL.
      destruct (Z.eqb_spec y 0); [lia|]. simpl in Ht. rewrite Ht. destruct (y =? SPACE)%Z; reflexivity.
  - inversion Hd as [|? ? Hx Hds]; subst.
    destruct (cget_field s cur w a x (ds ++ t) H E) as (Q1 & Q2 & Q3 & Q4). rewrite Q2, Q3.
    destruct (Nat.ltb_spec (cur + length a) (cur + w)); [|lia]. cbn [bind]. unfold NUL.
    destruct (Z.eqb_spec x 0); [lia|]. rewrite (proj2 (is_digit_iff x) Hx).
    assert (G : (acc * 10 + (x - 48) <= dec_from acc (x :: ds))%Z) by (apply (dec_from_ge ds); [assumption|lia]).
    destruct (Z.ltb_spec (acc * 10 + (x - 48)) (2 ^ 31)); [|lia].
    rewrite (IH ds (a ++ [x]) t); auto; [rewrite E, <- app_assoc; reflexivity|simpl in Hf; lia|lia].
Qed.

Lemma exp_digits_overflow s cur w : forall fuel ds a t acc has, in_card s cur w ->
  field s cur w = a ++ ds ++ t -> digits ds -> length ds < fuel ->
  (0 <= acc < 2 ^ 31)%Z -> (2 ^ 31 <= dec_from acc ds)%Z ->
  exp_digits fuel s (cur + w) (cur + length a) acc has = UB.
Proof.
  induction fuel as [|fuel IH]; intros ds a t acc has H E Hd Hf Ha Hv; [lia|]. cbn [exp_digits].
  destruct ds as [|x ds].
  - cbn [dec_from fold_left] in Hv. lia.
  - inversion Hd as [|? ? Hx Hds]; subst.
    destruct (cget_field s cur w a x (ds ++ t) H E) as (Q1 & Q2 & Q3 & Q4). rewrite Q2, Q3.
    destruct (Nat.ltb_spec (cur + length a) (cur + w)); [|lia]. cbn [bind]. unfold NUL.
    destruct (Z.eqb_spec x 0); [lia|]. rewrite (proj2 (is_digit_iff x) Hx).
    destruct (Z.ltb_spec (acc * 10 + (x - 48)) (2 ^ 31)); [|reflexivity].
    apply (IH ds (a ++ [x]) t); auto; [rewrite E, <- app_assoc; reflexivity|simpl in Hf; lia|lia].
Qed.

(** a character other than a digit directly at the exponent *)
Lemma exp_digits_foreign s cur w fuel a y t has : in_card s cur w ->
  field s cur w = a ++ y :: t -> is_digit y = false -> y <> SPACE ->
  exp_digits (S fuel) s (cur + w) (cur + length a) 0 has = OK None.
Proof.
  intros H E D Y. cbn [exp_digits].
  destruct (cget_field s cur w a y t H E) as (Q1 & Q2 & _ & Q4). rewrite Q2.
  destruct (Nat.ltb_spec (cur + length a) (cur + w)); [|lia]. cbn [bind]. unfold NUL.
  destruct (Z.eqb_spec y 0); [lia|]. rewrite D. destruct (Z.eqb_spec y SPACE); [congruence|reflexivity].
Qed.

Lemma exp_digits_past s E i v has : E <= i -> exp_digits FUEL s E i v has = OK (Some (v, has)).
Proof.
  intros H. change FUEL with (S 599). generalize 599. intros n. cbn [exp_digits].
  destruct (Nat.ltb_spec i E); [lia|reflexivity].
Qed.

(** The stages of the float parser. *)
Definition float_exp (A : farith) (s : cstr) (E : nat) (sign : F A) (has_integer : bool) (i : nat) (mantissa : F A) : res (fres A) :=
  do c <- cget s i;
  if is_e c then
    if negb has_integer then OK (fofz A 0, true)
    else
      let i := inc8 i in
      do c <- cget s i;
      let '(esign, i) := if (c =? MINUS)%Z then ((-1)%Z, inc8 i)
                         else if (c =? PLUS)%Z then (1%Z, inc8 i) else (1%Z, i) in
      let bad : res (fres A) := OK (fmul A mantissa sign, true) in
      if i =? E then bad
      else
        do c <- cget s i;
        if (c =? NUL)%Z || (c =? SPACE)%Z then bad
        else
          do x <- exp_digits FUEL s E i 0 false;
          match x with
          | None => OK (fofz A 0, true)
          | Some (v, true) => OK (fmul A (fscale A mantissa (esign * v)) sign, false)
          | Some (_, false) => bad
          end
  else OK (fmul A mantissa sign, false).

Definition float_tail (A : farith) (s : cstr) (E : nat) (sign : F A) (i : nat) (result : F A) (has_integer : bool) : res (fres A) :=
  if i =? E then OK (fmul A result sign, false)
  else
    do c <- cget s i;
    if (c =? NUL)%Z then OK (fmul A result sign, false)
    else
      do q <- (if (c =? DOT)%Z then
          do q <- float_frac A FUEL s E (inc8 i) result (fofz A 0) (fofz A 1) sign;
          match q with
          | inl v => OK (inl v)
          | inr (i, fraction, exponent) =>
            let v := fadd A result (fdiv A fraction exponent) in
            if i =? E then OK (inl (fmul A v sign, false))
            else
              do c <- cget s i;
              if (c =? NUL)%Z then OK (inl (fmul A v sign, false))
              else OK (inr (i, v))
          end
        else OK (inr (i, result)));
      match q with
      | inl v => OK v
      | inr (i, mantissa) => float_exp A s E sign has_integer i mantissa
      end.

Lemma float_unfold A s cur w : card_parse_float_width A s cur w =
  let E := cur + w in
  let EINVAL : res (fres A) := OK (fofz A 0, true) in
  do i <- bscan FUEL s E (fun c => c =? SPACE)%Z cur;
  if i =? E then EINVAL
  else
    do c <- cget s i;
    if (c =? NUL)%Z then EINVAL
    else
      let '(sign, i) := if (c =? MINUS)%Z then (fofz A (-1), inc8 i)
                        else if (c =? PLUS)%Z then (fofz A 1, inc8 i) else (fofz A 1, i) in
      if i =? E then EINVAL
      else
        do c <- cget s i;
        if (c =? NUL)%Z || (c =? SPACE)%Z then EINVAL
        else
          do r <- float_int A FUEL s E i (fofz A 0) false sign;
          match r with
          | inl v => OK v
          | inr (i, result, has_integer) => float_tail A s E sign i result has_integer
          end.
Proof. reflexivity. Qed.

Lemma app_shift {T} (a : list T) x b : a ++ x :: b = (a ++ [x]) ++ b.
Proof. rewrite <- app_assoc. reflexivity. Qed.

Lemma sign_split l : exists sg v r, l = sg ++ r /\ sign_text sg v /\
  (sg = [] -> stops is_sign r).
Proof.
  destruct l as [|x l]; [exists [], 1%Z, []; repeat split; [left; auto]|].
  destruct (is_sign x) eqn:E.
  - unfold is_sign in E. apply orb_true_iff in E as [E|E]; apply Z.eqb_eq in E; subst x.
    + exists [PLUS], 1%Z, l. repeat split; [right; left; auto|discriminate].
    + exists [MINUS], (-1)%Z, l. repeat split; [right; right; auto|discriminate].
  - exists [], 1%Z, (x :: l). repeat split; [left; auto|]. intros _. simpl. assumption.
Qed.

Lemma sign_stops_digit sg v r : sign_text sg v -> stops is_digit (sg ++ r) -> sg = [] \/ sg <> [].
Proof. intros [[-> _]|[[-> _]|[-> _]]] _; [left|right|right]; congruence. Qed.

Lemma digit_not_sign c : is_digit c = true -> (c =? MINUS)%Z = false /\ (c =? PLUS)%Z = false /\ (c =? SPACE)%Z = false /\ (c =? NUL)%Z = false
  /\ (c =? DOT)%Z = false /\ is_e c = false /\ is_sign c = false.
Proof. rewrite is_digit_iff. unfold is_e, is_sign, MINUS, PLUS, SPACE, NUL, DOT. lia. Qed.

Lemma is_e_not c : is_e c = true -> (c =? MINUS)%Z = false /\ (c =? PLUS)%Z = false /\ (c =? SPACE)%Z = false /\ (c =? NUL)%Z = false
  /\ (c =? DOT)%Z = false /\ is_digit c = false /\ is_sign c = false.
Proof. unfold is_e, is_digit, is_sign, MINUS, PLUS, SPACE, NUL, DOT. lia. Qed.

(** behind the 'e': skipping the sign *)
Lemma exp_sign_step {B} s cur w a sg v x r (K : Z -> nat -> res B) : in_card s cur w ->
  field s cur w = a ++ sg ++ x :: r -> sign_text sg v -> (sg = [] -> is_sign x = false) ->
  (do c <- cget s (cur + length a);
   let '(esign, i) := if (c =? MINUS)%Z then ((-1)%Z, inc8 (cur + length a))
                      else if (c =? PLUS)%Z then (1%Z, inc8 (cur + length a)) else (1%Z, cur + length a) in
   K esign i) = K v (cur + length (a ++ sg)).
Proof.
  intros H E S Hx. destruct S as [[-> ->]|[[-> ->]|[-> ->]]].
  - rewrite app_nil_r. simpl in E. destruct (cget_field s cur w a x r H E) as (_ & Q & _). rewrite Q. cbn [bind].
    specialize (Hx eq_refl). unfold is_sign in Hx. apply orb_false_iff in Hx as [X1 X2]. rewrite X1, X2. reflexivity.
  - simpl in E. destruct (cget_field s cur w a PLUS (x :: r) H E) as (_ & Q & Q2 & _). rewrite Q. cbn [bind].
    rewrite Q2. reflexivity.
  - simpl in E. destruct (cget_field s cur w a MINUS (x :: r) H E) as (_ & Q & Q2 & _). rewrite Q. cbn [bind].
    rewrite Q2. reflexivity.
Qed.

Lemma float_exp_at A s cur w sign a m r mant : in_card s cur w -> field s cur w = a ++ m :: r -> is_e m = true ->
  float_exp A s (cur + w) sign true (cur + length a) mant =
    do c <- cget s (cur + length (a ++ [m]));
    let '(esign, i) := if (c =? MINUS)%Z then ((-1)%Z, inc8 (cur + length (a ++ [m])))
                       else if (c =? PLUS)%Z then (1%Z, inc8 (cur + length (a ++ [m]))) else (1%Z, cur + length (a ++ [m])) in
    (let bad : res (fres A) := OK (fmul A mant sign, true) in
      if i =? cur + w then bad
      else
        do c <- cget s i;
        if (c =? NUL)%Z || (c =? SPACE)%Z then bad
        else
          do x <- exp_digits FUEL s (cur + w) i 0 false;
          match x with
          | None => OK (fofz A 0, true)
          | Some (v, true) => OK (fmul A (fscale A mant (esign * v)) sign, false)
          | Some (_, false) => bad
          end).
Proof.
  intros H E M. unfold float_exp.
  destruct (cget_field s cur w a m r H E) as (_ & Q & Q2 & _). rewrite Q. cbn [bind]. change (is_e m = true) in M; rewrite M. cbn [negb]. rewrite Q2.
  reflexivity.
Qed.

Lemma float_exp_accept A s cur w sign a m sg v ds t mant : in_card s cur w ->
  field s cur w = a ++ m :: sg ++ ds ++ t -> is_e m = true -> sign_text sg v -> digits ds -> ds <> [] ->
  (dec ds < 2 ^ 31)%Z -> ends t ->
  float_exp A s (cur + w) sign true (cur + length a) mant = OK (fmul A (fscale A mant (v * dec ds)) sign, false).
Proof.
  intros H E M Sg Hd Nd Hv Ht. rewrite (float_exp_at A s cur w sign a m _ mant H E M).
  rewrite app_shift in E. destruct ds as [|x ds]; [congruence|].
  inversion Hd as [|? ? Hx Hds]; subst. apply is_digit_iff in Hx. destruct (digit_not_sign x Hx) as (X1 & X2 & X3 & X4 & X5 & X6 & X7).
  rewrite (exp_sign_step s cur w (a ++ [m]) sg v x (ds ++ t)); [|assumption|assumption|assumption|auto].
  rewrite (app_assoc (a ++ [m]) sg) in E. set (p := (a ++ [m]) ++ sg) in *.
  destruct (cget_field s cur w p x (ds ++ t) H E) as (Q1 & Q2 & _).
  cbn zeta. destruct (Nat.eqb_spec (cur + length p) (cur + w)); [lia|]. rewrite Q2. cbn [bind]. rewrite X3, X4. cbn [orb].
  rewrite (exp_digits_spec s cur w FUEL (x :: ds) p t 0 false); auto; try lia.
  - cbn [bind]. destruct Ht as [->|[t' ->]]; [reflexivity|]. rewrite Z.eqb_refl. reflexivity.
  - apply stops_digit_end; assumption.
  - eapply (field_fuel s cur w p (x :: ds) t); eassumption.
Qed.

Lemma ends_dec t : ends t \/ exists x t', t = x :: t' /\ x <> SPACE.
Proof.
  destruct t as [|x t']; [left; left; reflexivity|]. destruct (Z.eq_dec x SPACE); [left; right; subst; eauto|right; eauto].
Qed.

Lemma float_exp_total A s cur w sign a m r mant : in_card s cur w ->
  field s cur w = a ++ m :: r -> is_e m = true ->
  (exists sg v ds t, r = sg ++ ds ++ t /\ sign_text sg v /\ digits ds /\ ds <> [] /\ (dec ds < 2 ^ 31)%Z /\ ends t) \/
  (exists v, float_exp A s (cur + w) sign true (cur + length a) mant = OK (v, true)) \/
  (float_exp A s (cur + w) sign true (cur + length a) mant = UB /\
   exists sg ds t, r = sg ++ ds ++ t /\ digits ds /\ (2 ^ 31 <= dec ds)%Z).
Proof.
  intros H E M. destruct (sign_split r) as (sg & v & q & -> & Sg & Sq).
  rewrite (float_exp_at A s cur w sign a m _ mant H E M).
  rewrite app_shift in E.
  destruct q as [|x q].
  - (* nothing behind the sign *)
    right; left. rewrite app_nil_r in E.
    assert (G : forall i, (i = cur + length (a ++ [m]) \/ i = cur + length (a ++ [m]) + 1) ->
       forall c, cget s i = OK c -> (c = 0%Z \/ cur + w <= i) -> forall esign, exists v,
      (if i =? cur + w then OK (fmul A mant sign, true)
      else
        do c <- cget s i;
        if (c =? NUL)%Z || (c =? SPACE)%Z then OK (fmul A mant sign, true)
        else
          do x <- exp_digits FUEL s (cur + w) i 0 false;
          match x with
          | None => OK (fofz A 0, true)
          | Some (v, true) => OK (fmul A (fscale A mant (esign * v)) sign, false)
          | Some (_, false) => OK (fmul A mant sign, true)
          end) = OK (v, true)).
    { intros i _ c Hc Hi esign. destruct (Nat.eqb_spec i (cur + w)); [eauto|]. rewrite Hc. cbn [bind].
      destruct ((c =? NUL)%Z || (c =? SPACE)%Z) eqn:Ec; [eauto|].
      destruct Hi as [->|Hi]; [discriminate|]. rewrite exp_digits_past by lia. cbn [bind]. eauto. }
    destruct Sg as [[-> ->]|[[-> ->]|[-> ->]]].
    + (* the field ends at the 'e' *)
      rewrite app_nil_r in E.
      destruct (cget_any s cur w (a ++ [m]) [] H ltac:(rewrite app_nil_r; exact E)) as (c & Qc & Q).
      rewrite Qc. cbn [bind].
      destruct H as (Hs & Hc & Hw). pose proof (field_length s cur w (a ++ [m]) [] ltac:(split; [exact Hs|split; [exact Hc|exact Hw]]) ltac:(rewrite app_nil_r; exact E)) as [L1 L2].
      assert (I8 : inc8 (cur + length (a ++ [m])) = cur + length (a ++ [m]) + 1)
        by (unfold inc8; rewrite Nat.mod_small by lia; reflexivity).
      assert (Next : c <> 0%Z -> exists c', cget s (cur + length (a ++ [m]) + 1) = OK c').
      { intros Nc. rewrite cget_nth0 in Qc by assumption. injection Qc as Qc.
        destruct (Nat.eq_dec (cur + length (a ++ [m])) (length s)) as [e|n].
        - rewrite e, nth_overflow in Qc by lia. congruence.
        - rewrite cget_nth0 by lia. eauto. }
      destruct (Z.eqb_spec c MINUS) as [Em|_].
      * destruct (Next ltac:(subst c; discriminate)) as [c' Hc']. rewrite I8. eapply G; [right; reflexivity|exact Hc'|].
        right. destruct Q; [lia|subst c; discriminate].
      * destruct (Z.eqb_spec c PLUS) as [Em|_].
        -- destruct (Next ltac:(subst c; discriminate)) as [c' Hc']. rewrite I8. eapply G; [right; reflexivity|exact Hc'|].
           right. destruct Q; [lia|subst c; discriminate].
        -- eapply G; [left; reflexivity|exact Qc|]. destruct Q; [right; lia|left; assumption].
    + destruct (cget_field s cur w (a ++ [m]) PLUS [] H E) as (_ & Q1 & Q2 & _). rewrite Q1. cbn [bind].
      change (PLUS =? MINUS)%Z with false. cbn [Z.eqb]. rewrite Z.eqb_refl, Q2.
      destruct (cget_any s cur w ((a ++ [m]) ++ [PLUS]) [] H ltac:(rewrite app_nil_r; exact E)) as (c & Qc & Q).
      eapply G; [right; rewrite (app_length (a ++ [m])); simpl; lia|exact Qc|]. destruct Q; [right; lia|left; assumption].
    + destruct (cget_field s cur w (a ++ [m]) MINUS [] H E) as (_ & Q1 & Q2 & _). rewrite Q1. cbn [bind].
      rewrite Z.eqb_refl, Q2.
      destruct (cget_any s cur w ((a ++ [m]) ++ [MINUS]) [] H ltac:(rewrite app_nil_r; exact E)) as (c & Qc & Q).
      eapply G; [right; rewrite (app_length (a ++ [m])); simpl; lia|exact Qc|]. destruct Q; [right; lia|left; assumption].
  - rewrite (exp_sign_step s cur w (a ++ [m]) sg v x q); [|assumption|assumption|assumption|intros ->; apply (Sq eq_refl)].
    rewrite (app_assoc (a ++ [m]) sg) in E. set (p := (a ++ [m]) ++ sg) in *.
    destruct (cget_field s cur w p x q H E) as (Q1 & Q2 & _ & Q4).
    cbn zeta. destruct (Nat.eqb_spec (cur + length p) (cur + w)); [lia|]. rewrite Q2. cbn [bind].
    unfold NUL. destruct (Z.eqb_spec x 0); [lia|]. cbn [orb].
    destruct (Z.eqb_spec x SPACE) as [|NS]; [right; left; eauto|].
    destruct (is_digit x) eqn:Dx.
    + destruct (split_span is_digit (x :: q)) as (ds & t & Eds & Hds & Ht).
      apply digits_forallb in Hds.
      assert (Nd : ds <> []) by (intros ->; simpl in Eds; subst t; simpl in Ht; congruence).
      destruct (Z_lt_le_dec (dec ds) (2 ^ 31)) as [L|L].
      * destruct (ends_dec t) as [T|(y & t' & -> & Ny)].
        -- left. exists sg, v, ds, t. rewrite Eds. repeat split; auto.
        -- right; left. rewrite Eds in E.
           rewrite (exp_digits_spec s cur w FUEL ds p (y :: t') 0 false); auto; try lia.
           ++ destruct (Z.eqb_spec y SPACE); [congruence|]. cbn [bind]. eauto.
           ++ eapply (field_fuel s cur w p ds); eassumption.
      * right; right. rewrite Eds in E.
        rewrite (exp_digits_overflow s cur w FUEL ds p t 0 false); auto; try lia.
        -- split; [reflexivity|]. exists sg, ds, t. rewrite Eds. repeat split; auto.
        -- eapply (field_fuel s cur w p ds); eassumption.
    + right; left. change FUEL with (S 599). rewrite (exp_digits_foreign s cur w 599 p x q); auto. cbn [bind]. eauto.
Qed.

Definition fmant (A : farith) (result : F A) (fr : option (list Z)) : F A :=
  match fr with
  | None => result
  | Some ds => fadd A result (fdiv A (fint A (fofz A 0) ds) (fpow A (fofz A 1) ds))
  end.
Definition fvalue (A : farith) (sg : Z) (ip : list Z) (fr : option (list Z)) (ex : option Z) : F A :=
  fmul A (match ex with
          | None => fmant A (fint A (fofz A 0) ip) fr
          | Some e => fscale A (fmant A (fint A (fofz A 0) ip) fr) e
          end) (fofz A sg).

(** at the end of the field *)
Lemma at_end {B} s cur w a (X : B) (K : Z -> res B) : in_card s cur w -> field s cur w = a ->
  (if cur + length a =? cur + w then OK X else do c <- cget s (cur + length a); if (c =? NUL)%Z then OK X else K c) = OK X.
Proof.
  intros H E. destruct (Nat.eqb_spec (cur + length a) (cur + w)); [reflexivity|].
  destruct (cget_field_end s cur w a H E) as [Q|[Q1 Q2]]; [lia|]. rewrite Q2. reflexivity.
Qed.
(** at a character of the field *)
Lemma at_char {B} s cur w a c b (X : B) (K : Z -> res B) : in_card s cur w -> field s cur w = a ++ c :: b ->
  (if cur + length a =? cur + w then OK X else do c <- cget s (cur + length a); if (c =? NUL)%Z then OK X else K c) = K c.
Proof.
  intros H E. destruct (cget_field s cur w a c b H E) as (Q1 & Q2 & _ & Q4).
  destruct (Nat.eqb_spec (cur + length a) (cur + w)); [lia|]. rewrite Q2. cbn [bind]. unfold NUL.
  destruct (Z.eqb_spec c 0); [lia|reflexivity].
Qed.

Lemma float_tail_end A s cur w sign a result has : in_card s cur w -> field s cur w = a ->
  float_tail A s (cur + w) sign (cur + length a) result has = OK (fmul A result sign, false).
Proof. intros H E. unfold float_tail. apply (at_end s cur w a); assumption. Qed.

Lemma float_tail_e A s cur w sign a m r result has : in_card s cur w -> field s cur w = a ++ m :: r -> is_e m = true ->
  float_tail A s (cur + w) sign (cur + length a) result has =
  float_exp A s (cur + w) sign has (cur + length a) result.
Proof.
  intros H E M. unfold float_tail. rewrite (at_char s cur w a m r) by assumption.
  destruct (is_e_not m M) as (_ & _ & _ & _ & D & _ & _). rewrite D. reflexivity.
Qed.

Lemma float_tail_dot A s cur w sign a ds r result has : in_card s cur w -> field s cur w = a ++ DOT :: ds ++ r ->
  digits ds -> stops is_digit r ->
  float_tail A s (cur + w) sign (cur + length a) result has =
  match r with
  | [] => OK (fmul A (fmant A result (Some ds)) sign, false)
  | c :: _ => if is_e c then float_exp A s (cur + w) sign has (cur + length (a ++ DOT :: ds)) (fmant A result (Some ds))
              else if (c =? SPACE)%Z then OK (fmul A (fmant A result (Some ds)) sign, false)
              else OK (fofz A 0, true)
  end.
Proof.
  intros H E Hd Hr. unfold float_tail. rewrite (at_char s cur w a DOT (ds ++ r)) by assumption.
  rewrite Z.eqb_refl. destruct (cget_field s cur w a DOT (ds ++ r) H E) as (_ & _ & Q & _). rewrite Q.
  rewrite app_shift in E.
  rewrite (float_frac_spec A s cur w result sign FUEL ds (a ++ [DOT]) r); auto;
    [|eapply (field_fuel s cur w (a ++ [DOT]) ds r); eassumption].
  cbn [bind]. cbn zeta.
  replace (a ++ DOT :: ds) with ((a ++ [DOT]) ++ ds) by (rewrite <- app_assoc; reflexivity).
  destruct r as [|c r].
  - rewrite app_nil_r in E.
    rewrite (at_end s cur w ((a ++ [DOT]) ++ ds)) by assumption. reflexivity.
  - destruct (is_e c) eqn:M.
    + rewrite app_assoc in E. rewrite (at_char s cur w ((a ++ [DOT]) ++ ds) c r) by assumption. reflexivity.
    + destruct (c =? SPACE)%Z; reflexivity.
Qed.

Lemma stops_digit_ext ext ex t : exp_text ext ex -> ends t -> stops is_digit (ext ++ t).
Proof.
  intros [[-> _]|(m & sg & v & ds & -> & M & _)] T; [apply stops_digit_end; assumption|].
  simpl. destruct (is_e_not m M) as (_ & _ & _ & _ & _ & D & _). exact D.
Qed.

(** the start of the parser: blanks and sign *)
Lemma float_start A s cur w b sg v x r : in_card s cur w -> field s cur w = b ++ sg ++ x :: r -> blanks b -> sign_text sg v ->
  (sg = [] -> is_sign x = false) -> x <> SPACE ->
  card_parse_float_width A s cur w =
    do r <- float_int A FUEL s (cur + w) (cur + length (b ++ sg)) (fofz A 0) false (fofz A v);
    match r with
    | inl v => OK v
    | inr (i, result, has_integer) => float_tail A s (cur + w) (fofz A v) i result has_integer
    end.
Proof.
  intros H E Hb Sg Hx Nx. rewrite float_unfold. cbn zeta.
  assert (St : stops (fun c => c =? SPACE)%Z (sg ++ x :: r)).
  { destruct Sg as [[-> _]|[[-> _]|[-> _]]]; simpl; [apply Z.eqb_neq; assumption|reflexivity|reflexivity]. }
  pose proof (bscan_spec s cur w (fun c => c =? SPACE)%Z eq_refl FUEL [] b (sg ++ x :: r) H E
     (proj1 (blanks_forallb b) Hb) St (field_fuel s cur w [] b _ H E)) as Bs.
  simpl length in Bs. rewrite Nat.add_0_r in Bs. simpl app in Bs. rewrite Bs. cbn [bind].
  assert (E2 : field s cur w = (b ++ sg) ++ x :: r) by (rewrite <- app_assoc; exact E).
  destruct (cget_field s cur w (b ++ sg) x r H E2) as (P1 & P2 & P3 & P4).
  assert (Fin : forall sgn, (if cur + length (b ++ sg) =? cur + w then OK (fofz A 0, true) else
            do c <- cget s (cur + length (b ++ sg));
            if (c =? NUL)%Z || (c =? SPACE)%Z then OK (fofz A 0, true)
            else do r <- float_int A FUEL s (cur + w) (cur + length (b ++ sg)) (fofz A 0) false sgn;
               match r with
               | inl v => OK v
               | inr (i, result, has_integer) => float_tail A s (cur + w) sgn i result has_integer
               end) = do r <- float_int A FUEL s (cur + w) (cur + length (b ++ sg)) (fofz A 0) false sgn;
               match r with
               | inl v => OK v
               | inr (i, result, has_integer) => float_tail A s (cur + w) sgn i result has_integer
               end).
  { intros sgn. destruct (Nat.eqb_spec (cur + length (b ++ sg)) (cur + w)); [lia|]. rewrite P2. cbn [bind]. unfold NUL.
    destruct (Z.eqb_spec x 0); [lia|]. destruct (Z.eqb_spec x SPACE); [congruence|]. reflexivity. }
  destruct Sg as [[-> ->]|[[-> ->]|[-> ->]]].
  - rewrite app_nil_r in *. rewrite (at_char s cur w b x r) by assumption.
    specialize (Hx eq_refl). unfold is_sign in Hx. apply orb_false_iff in Hx as [X1 X2]. rewrite X1, X2. apply Fin.
  - simpl in E. rewrite (at_char s cur w b PLUS (x :: r)) by assumption. change (PLUS =? MINUS)%Z with false. cbn iota. rewrite Z.eqb_refl.
    destruct (cget_field s cur w b PLUS (x :: r) H E) as (_ & _ & Q & _). rewrite Q. apply Fin.
  - simpl in E. rewrite (at_char s cur w b MINUS (x :: r)) by assumption. rewrite Z.eqb_refl.
    destruct (cget_field s cur w b MINUS (x :: r) H E) as (_ & _ & Q & _). rewrite Q. apply Fin.
Qed.

Lemma float_accept A s cur w sg ip fr ex : in_card s cur w -> float_text (field s cur w) sg ip fr ex ->
  card_parse_float_width A s cur w = OK (fvalue A sg ip fr ex, false).
Proof.
  intros H (b & sgt & frt & ext & t & E & Hb & Sg & Hip & Hfr & Hex & Ht & Hne).
  assert (N0 : exists x r, ip ++ frt ++ ext ++ t = x :: r /\ is_sign x = false /\ x <> SPACE).
  { destruct ip as [|x ip].
    - destruct Hne as [Hne|[Hne _]]; [congruence|]. destruct Hfr as [[_ ->]|(ds & -> & _ & _)]; [congruence|].
      exists DOT. simpl. eexists. repeat split. discriminate.
    - inversion Hip; subst. exists x, (ip ++ frt ++ ext ++ t). split; [reflexivity|].
      destruct (digit_not_sign x ltac:(apply is_digit_iff; assumption)) as (_ & _ & S1 & _ & _ & _ & S2).
      split; [assumption|]. apply Z.eqb_neq. assumption. }
  destruct N0 as (x & r & N0 & Nx & Ns).
  rewrite (float_start A s cur w b sgt sg x r); auto; [|rewrite E, N0; reflexivity].
  assert (E2 : field s cur w = (b ++ sgt) ++ ip ++ frt ++ ext ++ t) by (rewrite <- app_assoc; exact E).
  set (p := b ++ sgt) in *.
  assert (Stx : stops is_digit (ext ++ t)) by (eapply stops_digit_ext; eassumption).
  assert (Stf : stops is_digit (frt ++ ext ++ t)).
  { destruct Hfr as [[-> _]|(ds & -> & _)]; [exact Stx|reflexivity]. }
  rewrite (float_int_spec A s cur w (fofz A sg) FUEL ip p (frt ++ ext ++ t)); auto;
    [|eapply (field_fuel s cur w p ip); eassumption].
  cbn [bind]. cbn zeta.
  assert (Has : ex <> None -> match ip with [] => false | _ :: _ => true end = true).
  { intros Q. destruct ip; [|reflexivity]. destruct Hne as [Hne|[_ Hne]]; congruence. }
  assert (E3 : field s cur w = (p ++ ip) ++ frt ++ ext ++ t) by (rewrite <- app_assoc; exact E2).
  destruct Hfr as [[-> ->]|(ds & -> & Hds & ->)].
  - simpl app in *. destruct Hex as [[-> ->]|(m & sg' & v & ds & -> & M & Sg' & Hds & Nds & Hv & ->)].
    + simpl app in *. destruct Ht as [->|[t' ->]].
      * rewrite app_nil_r in E3. rewrite (float_tail_end A s cur w (fofz A sg) (p ++ ip)) by assumption. reflexivity.
      * change ((SPACE =? DOT)%Z || is_e SPACE) with false. cbn iota. rewrite Z.eqb_refl. reflexivity.
    + simpl app. cbn iota. change (is_e m = true) in M; rewrite M, orb_true_r. rewrite Has by discriminate.
      simpl app in E3. rewrite <- (app_assoc sg' ds t) in E3.
      rewrite (float_tail_e A s cur w (fofz A sg) (p ++ ip) m (sg' ++ ds ++ t)) by assumption.
      rewrite (float_exp_accept A s cur w (fofz A sg) (p ++ ip) m sg' v ds t); auto.
  - simpl app. cbn iota. rewrite Z.eqb_refl. cbn [orb].
    simpl app in E3.
    rewrite (float_tail_dot A s cur w (fofz A sg) (p ++ ip) ds (ext ++ t)) by assumption.
    destruct Hex as [[-> ->]|(m & sg' & v & ds' & -> & M & Sg' & Hds' & Nds' & Hv & ->)].
    + simpl app. destruct Ht as [->|[t' ->]]; [reflexivity|]. change (is_e SPACE) with false. cbn iota. rewrite Z.eqb_refl. reflexivity.
    + simpl app. cbn iota. change (is_e m = true) in M; rewrite M, Has by discriminate.
      rewrite (float_exp_accept A s cur w (fofz A sg) ((p ++ ip) ++ DOT :: ds) m sg' v ds' t); auto.
      rewrite E3, <- !app_assoc. simpl. rewrite <- !app_assoc. reflexivity.
Qed.

Definition exp_overflows (f : list Z) : Prop := exists a ds t, f = a ++ ds ++ t /\ digits ds /\ (2 ^ 31 <= dec ds)%Z /\ 2 <= length a.

Lemma sign_text_first sg v x r : sign_text sg v -> sg ++ r = x :: r -> True.
Proof. auto. Qed.

Lemma float_total A s cur w : in_card s cur w ->
  (exists sg ip fr ex, float_text (field s cur w) sg ip fr ex) \/
  (exists v, card_parse_float_width A s cur w = OK (v, true)) \/
  (card_parse_float_width A s cur w = UB /\ exp_overflows (field s cur w)).
Proof.
  intros H.
  destruct (split_span (fun c => c =? SPACE)%Z (field s cur w)) as (b & r0 & E & Hb & Hr0).
  apply blanks_forallb in Hb.
  destruct (sign_split r0) as (sgt & sg & r1 & -> & Sg & Sr).
  destruct r1 as [|x r1].
  - (* blank or a lone sign *)
    right; left. rewrite app_nil_r in E. rewrite float_unfold. cbn zeta.
    assert (Bs : bscan FUEL s (cur + w) (fun c => c =? SPACE)%Z cur = OK (cur + length b)).
    { pose proof (bscan_spec s cur w (fun c => c =? SPACE)%Z eq_refl FUEL [] b sgt H E
         (proj1 (blanks_forallb b) Hb) ltac:(rewrite app_nil_r in Hr0; exact Hr0) (field_fuel s cur w [] b _ H E)) as Bs.
      simpl length in Bs. rewrite Nat.add_0_r in Bs. simpl app in Bs. exact Bs. }
    rewrite Bs. cbn [bind].
    destruct Sg as [[-> ->]|[[-> ->]|[-> ->]]].
    + rewrite app_nil_r in E. rewrite (at_end s cur w b) by assumption. eauto.
    + rewrite (at_char s cur w b PLUS []) by assumption. change (PLUS =? MINUS)%Z with false. cbn iota. rewrite Z.eqb_refl.
      destruct (cget_field s cur w b PLUS [] H E) as (_ & _ & Q & _). rewrite Q.
      destruct (Nat.eqb_spec (cur + length (b ++ [PLUS])) (cur + w)); [eauto|].
      destruct (cget_field_end s cur w (b ++ [PLUS]) H E) as [Q1|[Q1 Q2]]; [lia|]. rewrite Q2. exists (fofz A 0). reflexivity.
    + rewrite (at_char s cur w b MINUS []) by assumption. rewrite Z.eqb_refl.
      destruct (cget_field s cur w b MINUS [] H E) as (_ & _ & Q & _). rewrite Q.
      destruct (Nat.eqb_spec (cur + length (b ++ [MINUS])) (cur + w)); [eauto|].
      destruct (cget_field_end s cur w (b ++ [MINUS]) H E) as [Q1|[Q1 Q2]]; [lia|]. rewrite Q2. exists (fofz A 0). reflexivity.
  - destruct (Z.eq_dec x SPACE) as [->|Nx].
    + (* a sign and a blank *)
      destruct sgt as [|sc sgt']; [simpl in Hr0; discriminate|].
      assert (Sc : (sgt' = [] /\ ((sc = PLUS /\ sg = 1%Z) \/ (sc = MINUS /\ sg = (-1)%Z)))).
      { destruct Sg as [[Q _]|[[Q ?]|[Q ?]]]; [discriminate|injection Q as -> ->; auto|injection Q as -> ->; auto]. }
      destruct Sc as [-> Sc]. right; left. rewrite float_unfold. cbn zeta.
      pose proof (bscan_spec s cur w (fun c => c =? SPACE)%Z eq_refl FUEL [] b _ H E
         (proj1 (blanks_forallb b) Hb) Hr0 (field_fuel s cur w [] b _ H E)) as Bs.
      simpl length in Bs. rewrite Nat.add_0_r in Bs. simpl app in Bs. rewrite Bs. cbn [bind].
      rewrite (at_char s cur w b sc (SPACE :: r1)) by assumption.
      destruct (cget_field s cur w b sc (SPACE :: r1) H E) as (_ & _ & Q & _).
      assert (E2 : field s cur w = (b ++ [sc]) ++ SPACE :: r1) by (rewrite E, <- app_assoc; reflexivity).
      destruct (cget_field s cur w (b ++ [sc]) SPACE r1 H E2) as (P1 & P2 & _).
      assert (G : forall (sgn : F A), exists v, (if cur + length (b ++ [sc]) =? cur + w then OK (fofz A 0, true) else
            do c <- cget s (cur + length (b ++ [sc]));
            if (c =? NUL)%Z || (c =? SPACE)%Z then OK (fofz A 0, true)
            else do r <- float_int A FUEL s (cur + w) (cur + length (b ++ [sc])) (fofz A 0) false sgn;
               match r with
               | inl v => OK v
               | inr (i, result, has_integer) => float_tail A s (cur + w) sgn i result has_integer
               end) = OK (v, true)).
      { intros sgn. destruct (cur + length (b ++ [sc]) =? cur + w); [eauto|]. rewrite P2. cbn [bind]. rewrite orb_true_r. eauto. }
      destruct Sc as [[-> _]|[-> _]].
      * change (PLUS =? MINUS)%Z with false. cbn iota. rewrite Z.eqb_refl, Q. apply G.
      * rewrite Z.eqb_refl, Q. apply G.
    + rewrite (float_start A s cur w b sgt sg x r1); auto.
      destruct (split_span is_digit (x :: r1)) as (ip & r2 & Eip & Hip & Hr2). apply digits_forallb in Hip.
      rewrite Eip in E.
      assert (E2 : field s cur w = (b ++ sgt) ++ ip ++ r2) by (rewrite <- app_assoc; exact E).
      rewrite (float_int_spec A s cur w (fofz A sg) FUEL ip (b ++ sgt) r2); auto;
        [|eapply (field_fuel s cur w (b ++ sgt) ip); eassumption].
      cbn [bind]. cbn zeta.
      assert (E3 : field s cur w = ((b ++ sgt) ++ ip) ++ r2) by (rewrite <- app_assoc; exact E2).
      destruct r2 as [|c r2].
      * (* integer only *)
        left. exists sg, ip, None, None, b, sgt, [], [], []. simpl. rewrite E.
        assert (ip <> []) by (intros ->; discriminate).
        repeat split; auto; try (left; auto).
      * destruct (Z.eqb_spec c DOT) as [->|Nd].
        -- cbn [orb]. destruct (split_span is_digit r2) as (ds & r3 & -> & Hds & Hr3). apply digits_forallb in Hds.
           rewrite (float_tail_dot A s cur w (fofz A sg) ((b ++ sgt) ++ ip) ds r3) by assumption.
           destruct r3 as [|y r3].
           ++ left. exists sg, ip, (Some ds), None, b, sgt, (DOT :: ds), [], []. rewrite app_nil_r in E. simpl. rewrite !app_nil_r. rewrite E.
              repeat split; auto; [right; exists ds; auto|left; auto|left; auto|right; split; [discriminate|reflexivity]].
           ++ destruct (is_e y) eqn:Y.
              ** destruct ip as [|i0 ip].
                 { right; left. unfold float_exp.
                   assert (E4 : field s cur w = (((b ++ sgt) ++ []) ++ DOT :: ds) ++ y :: r3).
                   { rewrite E3. rewrite <- (app_assoc _ (DOT :: ds)). reflexivity. }
                   destruct (cget_field s cur w _ y r3 H E4) as (_ & Q & _). rewrite Q. cbn [bind]. rewrite Y. cbn [negb]. eauto. }
                 assert (E4 : field s cur w = (((b ++ sgt) ++ i0 :: ip) ++ DOT :: ds) ++ y :: r3).
                 { rewrite E3. rewrite <- (app_assoc _ (DOT :: ds)). reflexivity. }
                 destruct (float_exp_total A s cur w (fofz A sg) _ y r3 (fmant A (fint A (fofz A 0) (i0 :: ip)) (Some ds)) H E4 Y)
                   as [(sg' & v & ds' & t & -> & Sg' & Hds' & Nds' & Hv & Ht)|[R|[R (sg' & ds' & t & -> & Hds' & Hv)]]].
                 --- left. exists sg, (i0 :: ip), (Some ds), (Some (v * dec ds')%Z), b, sgt, (DOT :: ds), (y :: sg' ++ ds'), t.
                     rewrite E. split; [simpl; rewrite <- !app_assoc; reflexivity|].
                     repeat split; auto; [right; exists ds; auto|right; exists y, sg', v, ds'; repeat split; auto|left; discriminate].
                 --- right; left. exact R.
                 --- right; right. split; [exact R|]. exists ((((b ++ sgt) ++ i0 :: ip) ++ DOT :: ds) ++ y :: sg'), ds', t.
                     rewrite E4. split; [rewrite <- !app_assoc; reflexivity|]. repeat split; auto.
                     rewrite !app_length. simpl. lia.
              ** destruct (Z.eqb_spec y SPACE) as [->|Ny]; [|right; left; eauto].
                 left. exists sg, ip, (Some ds), None, b, sgt, (DOT :: ds), [], (SPACE :: r3). rewrite E. simpl.
                 repeat split; auto; [right; exists ds; auto|left; auto|right; eauto|right; split; [discriminate|reflexivity]].
        -- cbn [orb]. destruct (is_e c) eqn:Y.
           ++ destruct ip as [|i0 ip].
              { right; left. rewrite (float_tail_e A s cur w (fofz A sg) ((b ++ sgt) ++ []) c r2) by assumption.
                unfold float_exp. destruct (cget_field s cur w _ c r2 H E3) as (_ & Q & _). rewrite Q. cbn [bind]. rewrite Y. cbn [negb]. eauto. }
              rewrite (float_tail_e A s cur w (fofz A sg) ((b ++ sgt) ++ i0 :: ip) c r2) by assumption.
              destruct (float_exp_total A s cur w (fofz A sg) _ c r2 (fint A (fofz A 0) (i0 :: ip)) H E3 Y)
                   as [(sg' & v & ds' & t & -> & Sg' & Hds' & Nds' & Hv & Ht)|[R|[R (sg' & ds' & t & -> & Hds' & Hv)]]].
              ** left. exists sg, (i0 :: ip), None, (Some (v * dec ds')%Z), b, sgt, [], (c :: sg' ++ ds'), t.
                 rewrite E. split; [simpl; rewrite <- !app_assoc; reflexivity|].
                 repeat split; auto; [left; auto|right; exists c, sg', v, ds'; repeat split; auto|left; discriminate].
              ** right; left. exact R.
              ** right; right. split; [exact R|]. exists (((b ++ sgt) ++ i0 :: ip) ++ c :: sg'), ds', t.
                 rewrite E3. split; [rewrite <- !app_assoc; reflexivity|]. repeat split; auto.
                 rewrite !app_length. simpl. lia.
           ++ destruct (Z.eqb_spec c SPACE) as [->|Ny]; [|right; left; eauto].
              left. exists sg, ip, None, None, b, sgt, [], [], (SPACE :: r2). rewrite E. simpl.
              assert (ip <> []).
              { intros ->. simpl in Eip. injection Eip as -> _. congruence. }
              repeat split; auto; try (left; auto; fail). right; eauto.
Qed.
