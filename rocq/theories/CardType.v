(** * The type query, iteration, string fields and the emptiness query *)
From Verif Require Import CBase CBaseFacts StringModel StringProofs CardModel CardSpec CardProofs.

Lemma stop_test {B} s cur w a r (X Y : B) : in_card s cur w -> field s cur w = a ++ r ->
  forall (K : Z -> res B),
  (do c <- cget s (cur + length a); if (c =? NUL)%Z || (c =? SPACE)%Z || (cur + length a =? cur + w) then OK X else K c) =
  match r with [] => OK X | c :: _ => if (c =? SPACE)%Z then OK X else K c end.
Proof.
  intros H E K. destruct r as [|c r].
  - destruct (cget_any s cur w a [] H E) as (c & -> & [Q | ->]); cbn [bind].
    + rewrite Q, Nat.eqb_refl, orb_true_r. reflexivity.
    + reflexivity.
  - destruct (cget_field s cur w a c r H E) as (Q1 & Q2 & _ & Q4). rewrite Q2. cbn [bind]. unfold NUL.
    destruct (Z.eqb_spec c 0); [lia|]. destruct (Nat.eqb_spec (cur + length a) (cur + w)); [lia|].
    rewrite orb_false_r. reflexivity.
Qed.

(** [i == E || !digit(string[i])] *)
Lemma bad_test s cur w a r : in_card s cur w -> field s cur w = a ++ r ->
  (if cur + length a =? cur + w then OK true else do c <- cget s (cur + length a); OK (negb (is_digit c))) =
  OK (match r with [] => true | c :: _ => negb (is_digit c) end).
Proof.
  intros H E. destruct r as [|c r].
  - rewrite app_nil_r in E. destruct (cget_field_end s cur w a H E) as [Q|[Q1 Q2]].
    + rewrite Q, Nat.eqb_refl. reflexivity.
    + rewrite Q2. destruct (cur + length a =? cur + w); reflexivity.
  - destruct (cget_field s cur w a c r H E) as (Q1 & Q2 & _ & Q4). rewrite Q2.
    destruct (Nat.eqb_spec (cur + length a) (cur + w)); [lia|]. reflexivity.
Qed.

Lemma digits_scan s cur w a ds r : in_card s cur w -> field s cur w = a ++ ds ++ r -> digits ds -> stops is_digit r ->
  pscan FUEL s (cur + w) is_digit (cur + length a) = OK (cur + length (a ++ ds)).
Proof.
  intros H E Hd Hr. apply (pscan_spec s cur w is_digit eq_refl FUEL a ds r); auto; [apply digits_forallb; assumption|].
  eapply (field_fuel s cur w a ds r); eassumption.
Qed.

(** digits behind which the field ends or a blank follows *)
Definition ends_b (t : list Z) : bool := match t with [] => true | c :: _ => (c =? SPACE)%Z end.
Lemma ends_b_iff t : ends_b t = true <-> ends t.
Proof.
  unfold ends, ends_b. destruct t as [|c t]; [split; auto|]. rewrite Z.eqb_eq. split.
  - intros ->. right; eauto.
  - intros [|[t' Q]]; [discriminate|congruence].
Qed.

Lemma type_exponent_spec s cur w a m sg v ds t : in_card s cur w -> field s cur w = a ++ m :: sg ++ ds ++ t ->
  sign_text sg v -> digits ds -> stops is_digit t -> (sg = [] -> ds = [] -> stops is_sign t) ->
  type_exponent s (cur + w) (cur + length a) =
    OK (if match ds with [] => false | _ => true end && ends_b t then CARD_FLOAT else CARD_STRING).
Proof.
  intros H E Sg Hd Ht Hs. unfold type_exponent.
  destruct (cget_field s cur w a m (sg ++ ds ++ t) H E) as (_ & _ & Q & _). rewrite Q. rewrite app_shift in E.
  set (p := a ++ [m]) in *. cbn zeta.
  (* the part behind the sign *)
  assert (R : field s cur w = (p ++ sg) ++ ds ++ t) by (rewrite <- app_assoc; exact E).
  assert (Fin : (do bad <- (if cur + length (p ++ sg) =? cur + w then OK true else do c <- cget s (cur + length (p ++ sg)); OK (negb (is_digit c)));
     if bad then OK CARD_STRING
     else
      do i <- pscan FUEL s (cur + w) is_digit (cur + length (p ++ sg));
      do c <- cget s i;
      if (c =? NUL)%Z || (c =? SPACE)%Z || (i =? cur + w) then OK CARD_FLOAT else OK CARD_STRING) =
      OK (if match ds with [] => false | _ => true end && ends_b t then CARD_FLOAT else CARD_STRING)).
  { rewrite (bad_test s cur w (p ++ sg) (ds ++ t)) by assumption. cbn [bind].
    destruct ds as [|x ds].
    - simpl app. destruct t as [|y t]; [reflexivity|]. simpl in Ht. rewrite Ht. reflexivity.
    - inversion Hd; subst. simpl app. cbn iota. rewrite (proj2 (is_digit_iff x)) by assumption. cbn [negb].
      rewrite (digits_scan s cur w (p ++ sg) (x :: ds) t) by assumption. cbn [bind].
      rewrite (stop_test s cur w ((p ++ sg) ++ x :: ds) t CARD_FLOAT CARD_STRING H ltac:(rewrite <- (app_assoc (p ++ sg)); exact R) (fun _ => OK CARD_STRING)).
      cbn [andb]. unfold ends_b. destruct t as [|y t]; [reflexivity|]. destruct (y =? SPACE)%Z; reflexivity. }
  destruct Sg as [[-> ->]|[[-> ->]|[-> ->]]].
  - rewrite app_nil_r in *. simpl app in *.
    destruct (ds ++ t) as [|x r] eqn:Er.
    + (* the field ends at the 'e' *)
      apply app_eq_nil in Er as [-> ->]. cbn [andb].
      destruct (cget_any s cur w p [] H E) as (c & Qc & Q'). rewrite Qc. cbn [bind].
      destruct (is_sign c) eqn:Ec; [|exact Fin].
      destruct Q' as [Q'|Q']; [|subst c; discriminate].
      destruct H as (Hs' & Hc & Hw).
      assert (L2 : cur + length p <= length s).
      { assert (HH : in_card s cur w) by (repeat split; assumption). destruct (field_length s cur w p [] HH E). assumption. }
      assert (I8 : inc8 (cur + length p) = cur + length p + 1) by (unfold inc8; rewrite Nat.mod_small by lia; reflexivity).
      rewrite I8.
      assert (Lt : cur + length p < length s).
      { destruct (Nat.eq_dec (cur + length p) (length s)) as [e|]; [|lia]. rewrite e, cget_end in Qc. injection Qc as <-. discriminate. }
      destruct (Nat.eqb_spec (cur + length p + 1) (cur + w)); [lia|].
      rewrite (cget_nth0 s (cur + length p + 1)) by lia. cbn [bind].
      destruct (is_digit (nth (cur + length p + 1) s 0%Z)) eqn:Dg; cbn [negb]; [|reflexivity].
      change FUEL with (S 599). generalize 599. intros n0. cbn [pscan]. rewrite (cget_nth0 s (cur + length p + 1)) by lia. cbn [bind].
      rewrite Dg. destruct (Nat.ltb_spec (cur + length p + 1) (cur + w)); [lia|]. cbn [andb bind].
      rewrite (cget_nth0 s (cur + length p + 1)) by lia. cbn [bind].
      destruct (digit_not_sign _ Dg) as (_ & _ & S1 & S2 & _). rewrite S1, S2.
      destruct (Nat.eqb_spec (cur + length p + 1) (cur + w)); [lia|]. reflexivity.
    + assert (Nx : is_sign x = false).
      { destruct ds as [|d ds].
        - simpl in Er. subst t. specialize (Hs eq_refl eq_refl). exact Hs.
        - injection Er as -> _. inversion Hd; subst. apply digit_not_sign. apply is_digit_iff. assumption. }
      destruct (cget_field s cur w p x r H E) as (_ & Q2 & _). rewrite Q2. cbn [bind].
      rewrite Nx. exact Fin.
  - destruct (cget_field s cur w p PLUS (ds ++ t) H E) as (_ & Q2 & Q3 & _). rewrite Q2. cbn [bind].
    change (is_sign PLUS) with true. cbn iota. rewrite Q3. exact Fin.
  - destruct (cget_field s cur w p MINUS (ds ++ t) H E) as (_ & Q2 & Q3 & _). rewrite Q2. cbn [bind].
    change (is_sign MINUS) with true. cbn iota. rewrite Q3. exact Fin.
Qed.

(** the part behind the leading digits *)
Definition type_rest (s : cstr) (E i : nat) : res card_type :=
  do c <- cget s i;
  if (c =? NUL)%Z || (c =? SPACE)%Z || (i =? E) then OK CARD_INT
  else if (c =? DOT)%Z then
    let i := inc8 i in
    do bad <- (if i =? E then OK true else do c <- cget s i; OK (negb (is_digit c)));
    if bad then OK CARD_STRING
    else
      do i <- pscan FUEL s E is_digit i;
      do c <- cget s i;
      if (c =? NUL)%Z || (c =? SPACE)%Z || (i =? E) then OK CARD_FLOAT
      else if is_e c then type_exponent s E i else OK CARD_STRING
  else if is_e c then type_exponent s E i
  else OK CARD_STRING.

Lemma type_rest_spec s cur w a r : in_card s cur w -> field s cur w = a ++ r ->
  type_rest s (cur + w) (cur + length a) =
  match r with
  | [] => OK CARD_INT
  | c :: _ => if (c =? SPACE)%Z then OK CARD_INT
              else if (c =? DOT)%Z then
                let i := inc8 (cur + length a) in
                do bad <- (if i =? cur + w then OK true else do c <- cget s i; OK (negb (is_digit c)));
                if bad then OK CARD_STRING
                else
                  do i <- pscan FUEL s (cur + w) is_digit i;
                  do c <- cget s i;
                  if (c =? NUL)%Z || (c =? SPACE)%Z || (i =? cur + w) then OK CARD_FLOAT
                  else if is_e c then type_exponent s (cur + w) i else OK CARD_STRING
              else if is_e c then type_exponent s (cur + w) (cur + length a)
              else OK CARD_STRING
  end.
Proof. intros H E. unfold type_rest. rewrite (stop_test s cur w a r CARD_INT CARD_STRING H E). reflexivity. Qed.

Lemma type_dot s cur w a ds r : in_card s cur w -> field s cur w = a ++ DOT :: ds ++ r -> digits ds -> stops is_digit r ->
  type_rest s (cur + w) (cur + length a) =
  match ds with
  | [] => OK CARD_STRING
  | _ => match r with
         | [] => OK CARD_FLOAT
         | c :: _ => if (c =? SPACE)%Z then OK CARD_FLOAT
                     else if is_e c then type_exponent s (cur + w) (cur + length (a ++ DOT :: ds)) else OK CARD_STRING
         end
  end.
Proof.
  intros H E Hd Hr. rewrite (type_rest_spec s cur w a (DOT :: ds ++ r)) by assumption.
  change (DOT =? SPACE)%Z with false. cbn iota. rewrite Z.eqb_refl.
  destruct (cget_field s cur w a DOT (ds ++ r) H E) as (_ & _ & Q & _). rewrite Q. cbn zeta. rewrite app_shift in E.
  rewrite (bad_test s cur w (a ++ [DOT]) (ds ++ r)) by assumption. cbn [bind].
  destruct ds as [|x ds].
  - simpl app. destruct r as [|c r]; [reflexivity|]. simpl in Hr. rewrite Hr. reflexivity.
  - inversion Hd; subst. simpl app. cbn iota. rewrite (proj2 (is_digit_iff x)) by assumption. cbn [negb].
    rewrite (digits_scan s cur w (a ++ [DOT]) (x :: ds) r) by assumption. cbn [bind].
    rewrite (stop_test s cur w ((a ++ [DOT]) ++ x :: ds) r CARD_FLOAT CARD_STRING H ltac:(rewrite <- (app_assoc (a ++ [DOT])); exact E)
       (fun c => if is_e c then type_exponent s (cur + w) (cur + length ((a ++ [DOT]) ++ x :: ds)) else OK CARD_STRING)).
    replace ((a ++ [DOT]) ++ x :: ds) with (a ++ DOT :: x :: ds) by (rewrite <- app_assoc; reflexivity). reflexivity.
Qed.

Lemma type_unfold s cur w : card_parse_get_type_width s cur w =
  if w =? 0 then OK CARD_STRING
  else
    do i <- pscan FUEL s (cur + w) (fun c => c =? SPACE)%Z cur;
    do c <- cget s i;
    if (c =? NUL)%Z || (i =? cur + w) then OK CARD_STRING
    else
      do j <- (if is_sign c then
          let i := inc8 i in
          if i =? cur + w then OK None
          else do c <- cget s i; if is_digit c then OK (Some i) else OK None
        else if is_digit c then OK (Some (inc8 i))
        else OK None);
      match j with
      | None => OK CARD_STRING
      | Some i => do i <- pscan FUEL s (cur + w) is_digit i; type_rest s (cur + w) i
      end.
Proof. reflexivity. Qed.

(** the type query on [blanks sign digits rest] *)
Lemma type_start s cur w b sg v ip r : in_card s cur w -> field s cur w = b ++ sg ++ ip ++ r -> blanks b -> sign_text sg v ->
  digits ip -> ip <> [] -> stops is_digit r ->
  card_parse_get_type_width s cur w = type_rest s (cur + w) (cur + length (b ++ sg ++ ip)).
Proof.
  intros H E Hb Sg Hd Nd Hr. rewrite type_unfold.
  destruct ip as [|x ip]; [congruence|]. inversion Hd as [|? ? Hx Hip]; subst. apply is_digit_iff in Hx.
  destruct (digit_not_sign x Hx) as (X1 & X2 & X3 & X4 & X5 & X6 & X7).
  assert (W0 : w <> 0).
  { intros ->. unfold field in E. simpl in E. symmetry in E. apply app_eq_nil in E as [_ E]. apply app_eq_nil in E as [_ E]. discriminate. }
  destruct (Nat.eqb_spec w 0); [contradiction|].
  assert (St : stops (fun c => c =? SPACE)%Z (sg ++ (x :: ip) ++ r)).
  { destruct Sg as [[-> _]|[[-> _]|[-> _]]]; simpl; auto. }
  pose proof (pscan_spec s cur w (fun c => c =? SPACE)%Z eq_refl FUEL [] b _ H E
     (proj1 (blanks_forallb b) Hb) St (field_fuel s cur w [] b _ H E)) as Bs.
  simpl length in Bs. rewrite Nat.add_0_r in Bs. simpl app in Bs. rewrite Bs. cbn [bind].
  assert (E2 : field s cur w = (b ++ sg) ++ x :: ip ++ r) by (rewrite <- app_assoc; exact E).
  destruct (cget_field s cur w (b ++ sg) x (ip ++ r) H E2) as (P1 & P2 & P3 & _).
  destruct Sg as [[-> ->]|[[-> ->]|[-> ->]]].
  - rewrite app_nil_r in *. simpl app in *. rewrite P2. cbn [bind]. rewrite X4.
    destruct (Nat.eqb_spec (cur + length b) (cur + w)); [lia|]. cbn [orb]. rewrite X7, Hx, P3. cbn [bind].
    rewrite (digits_scan s cur w (b ++ [x]) ip r); auto; [|rewrite E, <- app_assoc; reflexivity]. cbn [bind].
    rewrite <- app_assoc. reflexivity.
  - simpl app in E. destruct (cget_field s cur w b PLUS _ H E) as (R1 & R2 & R3 & _). rewrite R2. cbn [bind].
    change (PLUS =? NUL)%Z with false. destruct (Nat.eqb_spec (cur + length b) (cur + w)); [lia|]. cbn [orb].
    change (is_sign PLUS) with true. cbn iota. rewrite R3. cbn zeta.
    destruct (Nat.eqb_spec (cur + length (b ++ [PLUS])) (cur + w)); [lia|]. rewrite P2. cbn [bind]. rewrite Hx. cbn [bind].
    rewrite (digits_scan s cur w (b ++ [PLUS]) (x :: ip) r) by assumption. cbn [bind]. rewrite <- app_assoc. reflexivity.
  - simpl app in E. destruct (cget_field s cur w b MINUS _ H E) as (R1 & R2 & R3 & _). rewrite R2. cbn [bind].
    change (MINUS =? NUL)%Z with false. destruct (Nat.eqb_spec (cur + length b) (cur + w)); [lia|]. cbn [orb].
    change (is_sign MINUS) with true. cbn iota. rewrite R3. cbn zeta.
    destruct (Nat.eqb_spec (cur + length (b ++ [MINUS])) (cur + w)); [lia|]. rewrite P2. cbn [bind]. rewrite Hx. cbn [bind].
    rewrite (digits_scan s cur w (b ++ [MINUS]) (x :: ip) r) by assumption. cbn [bind]. rewrite <- app_assoc. reflexivity.
Qed.

(** fields without leading digits are strings *)
Lemma type_no_digits s cur w b sg v r : in_card s cur w -> field s cur w = b ++ sg ++ r -> blanks b -> sign_text sg v ->
  stops is_digit r -> stops (fun c => c =? SPACE)%Z (sg ++ r) -> (sg = [] -> stops is_sign r) ->
  card_parse_get_type_width s cur w = OK CARD_STRING.
Proof.
  intros H E Hb Sg Hr Hs Hsg. rewrite type_unfold. destruct (Nat.eqb_spec w 0); [reflexivity|].
  pose proof (pscan_spec s cur w (fun c => c =? SPACE)%Z eq_refl FUEL [] b _ H E
     (proj1 (blanks_forallb b) Hb) Hs (field_fuel s cur w [] b _ H E)) as Bs.
  simpl length in Bs. rewrite Nat.add_0_r in Bs. simpl app in Bs. rewrite Bs. cbn [bind].
  assert (G : forall sc, sg = [sc] -> is_sign sc = true ->
    (do c <- cget s (cur + length b);
    if (c =? NUL)%Z || (cur + length b =? cur + w) then OK CARD_STRING
    else
      do j <- (if is_sign c then
          let i := inc8 (cur + length b) in
          if i =? cur + w then OK None
          else do c <- cget s i; if is_digit c then OK (Some i) else OK None
        else if is_digit c then OK (Some (inc8 (cur + length b)))
        else OK None);
      match j with
      | None => OK CARD_STRING
      | Some i => do i <- pscan FUEL s (cur + w) is_digit i; type_rest s (cur + w) i
      end) = OK CARD_STRING).
  { intros sc -> Sc. simpl app in E. destruct (cget_field s cur w b sc r H E) as (R1 & R2 & R3 & R4). rewrite R2. cbn [bind].
    unfold NUL. destruct (Z.eqb_spec sc 0); [lia|]. destruct (Nat.eqb_spec (cur + length b) (cur + w)); [lia|]. cbn [orb].
    rewrite Sc, R3. cbn zeta. rewrite app_shift in E.
    destruct r as [|y r].
    - rewrite app_nil_r in E. destruct (Nat.eqb_spec (cur + length (b ++ [sc])) (cur + w)); [reflexivity|].
      destruct (cget_field_end s cur w (b ++ [sc]) H E) as [Q|[_ Q]]; [lia|]. rewrite Q. reflexivity.
    - destruct (cget_field s cur w (b ++ [sc]) y r H E) as (_ & Q & _). rewrite Q. cbn [bind]. simpl in Hr. rewrite Hr.
      destruct (cur + length (b ++ [sc]) =? cur + w); reflexivity. }
  destruct Sg as [[-> ->]|[[-> ->]|[-> ->]]].
  - simpl app in *. destruct r as [|y r].
    + destruct (cget_any s cur w b [] H E) as (c & -> & [Q | ->]); cbn [bind]; [rewrite Q, Nat.eqb_refl, orb_true_r|]; reflexivity.
    + destruct (cget_field s cur w b y r H E) as (_ & Q & _). rewrite Q. cbn [bind].
      specialize (Hsg eq_refl). simpl in Hsg, Hr. rewrite Hsg, Hr. destruct ((y =? NUL)%Z || (cur + length b =? cur + w)); reflexivity.
  - apply (G PLUS); reflexivity.
  - apply (G MINUS); reflexivity.
Qed.

Lemma ends_stops_digit t : ends_b t = true -> stops is_digit t.
Proof. intros H. apply stops_digit_end. apply ends_b_iff. exact H. Qed.

Lemma exp_split r : exists sg v ds t, r = sg ++ ds ++ t /\ sign_text sg v /\ digits ds /\ stops is_digit t /\ (sg = [] -> ds = [] -> stops is_sign t).
Proof.
  destruct (sign_split r) as (sg & v & q & -> & Sg & Hs).
  destruct (split_span is_digit q) as (ds & t & -> & Hd & Ht). apply digits_forallb in Hd.
  exists sg, v, ds, t. repeat split; auto. intros -> ->. apply Hs. reflexivity.
Qed.

Lemma type_total s cur w : in_card s cur w ->
  (card_parse_get_type_width s cur w = OK CARD_INT /\ int_typed (field s cur w)) \/
  (card_parse_get_type_width s cur w = OK CARD_FLOAT /\ float_typed (field s cur w)) \/
  card_parse_get_type_width s cur w = OK CARD_STRING.
Proof.
  intros H.
  destruct (split_span (fun c => c =? SPACE)%Z (field s cur w)) as (b & r0 & E & Hb & Hr0). apply blanks_forallb in Hb.
  destruct (sign_split r0) as (sg & v & r1 & -> & Sg & Sr).
  destruct (split_span is_digit r1) as (ip & r & -> & Hip & Hr). apply digits_forallb in Hip.
  destruct (list_eq_dec Z.eq_dec ip []) as [->|Nip].
  { right; right. simpl app in *. eapply type_no_digits; eauto. }
  rewrite (type_start s cur w b sg v ip r) by assumption.
  assert (E2 : field s cur w = (b ++ sg ++ ip) ++ r) by (rewrite E, <- !app_assoc; reflexivity).
  set (p := b ++ sg ++ ip) in *.
  assert (Int : ends r -> int_typed (field s cur w)) by (intros T; exists b, sg, v, ip, r; repeat split; auto).
  destruct r as [|c r].
  - left. rewrite (type_rest_spec s cur w p []) by assumption. split; [reflexivity|]. apply Int. left; reflexivity.
  - destruct (Z.eqb_spec c SPACE) as [->|Ns].
    { left. rewrite (type_rest_spec s cur w p (SPACE :: r)) by assumption. rewrite Z.eqb_refl. split; [reflexivity|]. apply Int. right; eauto. }
    destruct (Z.eqb_spec c DOT) as [->|Nd].
    + destruct (split_span is_digit r) as (ds & r2 & -> & Hds & Hr2). apply digits_forallb in Hds.
      rewrite (type_dot s cur w p ds r2) by assumption.
      destruct ds as [|d ds]; [right; right; reflexivity|].
      assert (Fl : forall ext t, r2 = ext ++ t -> ends t -> (ext = [] \/ exp_part ext) -> float_typed (field s cur w)).
      { intros ext t Er T X. exists b, sg, v, ip, (DOT :: d :: ds), ext, t. rewrite E, Er. split; [reflexivity|].
        repeat split; auto; [right; exists (d :: ds); repeat split; auto; discriminate|left; discriminate]. }
      destruct r2 as [|y r2]; [right; left; split; [reflexivity|]; apply (Fl [] []); auto; left; reflexivity|].
      destruct (Z.eqb_spec y SPACE) as [->|Ny]; [right; left; split; [reflexivity|]; apply (Fl [] (SPACE :: r2)); auto; right; eauto|].
      destruct (is_e y) eqn:Y; [|right; right; reflexivity].
      destruct (exp_split r2) as (sg' & v' & ds' & t & -> & Sg' & Hds' & Ht' & Hs').
      rewrite (type_exponent_spec s cur w (p ++ DOT :: d :: ds) y sg' v' ds' t); auto;
        [|rewrite E2, <- app_assoc; reflexivity].
      destruct ds' as [|d' ds']; [right; right; reflexivity|]. cbn [andb]. destruct (ends_b t) eqn:T; [|right; right; reflexivity].
      right; left. split; [reflexivity|]. apply (Fl (y :: sg' ++ d' :: ds') t).
      * simpl. rewrite <- app_assoc. reflexivity.
      * apply ends_b_iff. exact T.
      * right. exists y, sg', v', (d' :: ds'). repeat split; auto. discriminate.
    + rewrite (type_rest_spec s cur w p (c :: r)) by assumption.
      destruct (Z.eqb_spec c SPACE); [contradiction|]. destruct (Z.eqb_spec c DOT); [contradiction|].
      destruct (is_e c) eqn:Y; [|right; right; reflexivity].
      destruct (exp_split r) as (sg' & v' & ds' & t & -> & Sg' & Hds' & Ht' & Hs').
      rewrite (type_exponent_spec s cur w p c sg' v' ds' t); auto.
      destruct ds' as [|d' ds']; [right; right; reflexivity|]. cbn [andb]. destruct (ends_b t) eqn:T; [|right; right; reflexivity].
      right; left. split; [reflexivity|]. exists b, sg, v, ip, [], (c :: sg' ++ d' :: ds'), t.
      rewrite E. split; [simpl; rewrite <- app_assoc; reflexivity|]. apply ends_b_iff in T.
      repeat split; auto; [right; exists c, sg', v', (d' :: ds'); repeat split; auto; discriminate|right; discriminate].
Qed.

Lemma type_int_complete s cur w : in_card s cur w -> int_typed (field s cur w) -> card_parse_get_type_width s cur w = OK CARD_INT.
Proof.
  intros H (b & sg & v & ip & t & E & Hb & Sg & Hip & Nip & T).
  rewrite (type_start s cur w b sg v ip t); auto; [|apply stops_digit_end; assumption].
  rewrite (type_rest_spec s cur w (b ++ sg ++ ip) t) by (auto; rewrite E, <- !app_assoc; reflexivity).
  destruct T as [->|[t' ->]]; reflexivity.
Qed.

Lemma type_float_complete s cur w : in_card s cur w -> float_typed (field s cur w) -> card_parse_get_type_width s cur w = OK CARD_FLOAT.
Proof.
  intros H (b & sg & v & ip & frt & ext & t & E & Hb & Sg & Hip & Nip & Hfr & Hex & Ne & T).
  assert (Stx : stops is_digit (ext ++ t)).
  { destruct Hex as [->|(m & ? & ? & ? & -> & M & _)]; [apply stops_digit_end; assumption|]. simpl.
    apply is_e_not in M. apply M. }
  assert (Stf : stops is_digit (frt ++ ext ++ t)).
  { destruct Hfr as [->|(ds & -> & _)]; [exact Stx|reflexivity]. }
  rewrite (type_start s cur w b sg v ip (frt ++ ext ++ t)); auto.
  assert (E2 : field s cur w = (b ++ sg ++ ip) ++ frt ++ ext ++ t) by (rewrite E, <- !app_assoc; reflexivity).
  set (p := b ++ sg ++ ip) in *.
  assert (X : forall a, field s cur w = a ++ ext ++ t -> ext <> [] ->
     exists m r, ext ++ t = m :: r /\ is_e m = true /\ type_exponent s (cur + w) (cur + length a) = OK CARD_FLOAT).
  { intros a Ea Nx. destruct Hex as [->|(m & sg' & v' & ds & -> & M & Sg' & Hds & Nds)]; [congruence|].
    exists m, ((sg' ++ ds) ++ t). split; [reflexivity|]. split; [assumption|].
    rewrite (type_exponent_spec s cur w a m sg' v' ds t); auto.
    - destruct ds; [congruence|]. rewrite (proj2 (ends_b_iff t) T). reflexivity.
    - rewrite Ea. simpl. rewrite <- app_assoc. reflexivity.
    - apply stops_digit_end; assumption.
    - intros _ ->. congruence. }
  destruct Hfr as [->|(ds & -> & Hds & Nds)].
  - simpl app in *. assert (Nx : ext <> []) by (destruct Ne; congruence).
    destruct (X p E2 Nx) as (m & r & Em & M & R). rewrite (type_rest_spec s cur w p (ext ++ t)) by assumption.
    rewrite Em. destruct (is_e_not m M) as (_ & _ & S1 & _ & S2 & _). rewrite S1, S2, M. exact R.
  - simpl app in E2. rewrite (type_dot s cur w p ds (ext ++ t)) by assumption.
    destruct ds as [|d ds]; [congruence|].
    destruct (list_eq_dec Z.eq_dec ext []) as [->|Nx].
    + simpl app. destruct T as [->|[t' ->]]; reflexivity.
    + destruct (X (p ++ DOT :: d :: ds) ltac:(rewrite E2, <- app_assoc; reflexivity) Nx) as (m & r & Em & M & R).
      rewrite Em. destruct (is_e_not m M) as (_ & _ & S1 & _). rewrite S1, M. exact R.
Qed.

(** ** emptiness *)
Lemma is_empty_spec s cur w : in_card s cur w ->
  exists e, card_parse_is_empty_width s cur w = OK e /\ (e = true <-> blanks (field s cur w)).
Proof.
  intros H. unfold card_parse_is_empty_width.
  assert (G : forall fuel a r, field s cur w = a ++ r -> blanks a -> length r < fuel -> exists e,
    (fix go (fuel i : nat) : res bool :=
     match fuel with
     | O => OOF
     | S f =>
       if i <? cur + w then
         do c <- cget s i;
         if (c =? NUL)%Z then OK true
         else if negb (c =? SPACE)%Z then OK false
         else go f (inc8 i)
       else OK true
     end) fuel (cur + length a) = OK e /\ (e = true <-> blanks (field s cur w))).
  { induction fuel as [|fuel IH]; intros a r E Ha Hf; [lia|].
    destruct r as [|c r].
    - rewrite app_nil_r in E. exists true. split; [|rewrite E; tauto].
      destruct (cget_field_end s cur w a H E) as [Q|[Q1 Q2]].
      + rewrite Q, Nat.ltb_irrefl. reflexivity.
      + rewrite Q2. destruct (cur + length a <? cur + w); reflexivity.
    - destruct (cget_field s cur w a c r H E) as (Q1 & Q2 & Q3 & Q4). rewrite Q2, Q3.
      destruct (Nat.ltb_spec (cur + length a) (cur + w)); [|lia]. cbn [bind]. unfold NUL.
      destruct (Z.eqb_spec c 0); [lia|]. destruct (Z.eqb_spec c SPACE) as [->|n0]; cbn [negb].
      + apply (IH (a ++ [SPACE]) r); [rewrite E, <- app_assoc; reflexivity| |simpl in Hf; lia].
        unfold blanks in *. apply Forall_app. split; [assumption|repeat constructor].
      + exists false. split; [reflexivity|]. split; [discriminate|]. rewrite E. unfold blanks. rewrite Forall_app.
        intros [_ B]. inversion B; congruence. }
  pose proof (G FUEL [] (field s cur w) eq_refl (Forall_nil _)) as R.
  simpl length in R. rewrite Nat.add_0_r in R. apply R.
  apply (field_fuel s cur w [] (field s cur w) []); [assumption|]. simpl. rewrite app_nil_r. reflexivity.
Qed.

(** ** strings *)
Lemma bind_OK {A B} (a : A) (f : A -> res B) : bind (OK a) f = f a.
Proof. reflexivity. Qed.

Lemma last_split (l : list Z) : exists q b, l = q ++ b /\ blanks b /\ (q <> [] -> last q SPACE <> SPACE).
Proof.
  induction l as [|x l IH] using rev_ind.
  - exists [], []. repeat split; [constructor|congruence].
  - destruct IH as (q & b & -> & Hb & Hq). destruct (Z.eq_dec x SPACE) as [->|n].
    + exists q, (b ++ [SPACE]). repeat split; auto; [rewrite app_assoc; reflexivity|]. unfold blanks in *. apply Forall_app. split; auto.
    + exists ((q ++ b) ++ [x]), []. rewrite app_nil_r. repeat split; [constructor|]. intros _. rewrite last_last. assumption.
Qed.

(** index of the last character that is not a blank *)
Fixpoint last_nb (q : list Z) (i e : nat) : nat :=
  match q with
  | [] => e
  | c :: q' => last_nb q' (i + 1) (if negb (c =? SPACE)%Z then i else e)
  end.
Lemma last_nb_blanks b : forall i e, blanks b -> last_nb b i e = e.
Proof.
  induction b as [|c b IH]; intros i e H; [reflexivity|]. inversion H; subst. simpl. apply IH. assumption.
Qed.
Lemma last_nb_app q b : forall i e, q <> [] -> last q SPACE <> SPACE -> blanks b -> last_nb (q ++ b) i e = i + length q - 1.
Proof.
  induction q as [|c q IH]; intros i e Hn Hl Hb; [congruence|].
  destruct q as [|d q].
  - simpl in Hl. simpl. destruct (Z.eqb_spec c SPACE); [contradiction|]. cbn [negb]. rewrite last_nb_blanks by assumption. lia.
  - change (last_nb ((c :: d :: q) ++ b) i e) with (last_nb ((d :: q) ++ b) (i + 1) (if negb (c =? SPACE)%Z then i else e)).
    rewrite IH; [cbn [length]; lia|discriminate|exact Hl|assumption].
Qed.

Lemma skipn_firstn_nul (s : cstr) k n : k + n <= length s -> firstn n (skipn k (s ++ [NUL])) = firstn n (skipn k s).
Proof.
  intros H. rewrite skipn_app, firstn_app, skipn_length.
  replace (n - (length s - k)) with 0 by lia. rewrite firstn_O, app_nil_r. reflexivity.
Qed.

Lemma cstring_at_cstr t x : is_cstr t -> cstring_at (t ++ 0%Z :: x) = OK t.
Proof.
  induction 1 as [|c t Hc _ IH]; [reflexivity|]. simpl. destruct (Z.eqb_spec c 0); [lia|]. rewrite IH. reflexivity.
Qed.

Definition str_card (s : cstr) (cur w : nat) : Prop := is_cstr s /\ cur <= length s /\ w <= 255.

Lemma sget_field s cur w a c b : str_card s cur w -> field s cur w = a ++ c :: b ->
  length a < w /\ cget s (length a + cur) = OK c /\ inc8 (length a) = length (a ++ [c]) /\ (0 < c < 256)%Z.
Proof.
  intros (Hs & Hc & Hw) E.
  assert (L : length (field s cur w) = length a + S (length b)) by (rewrite E, app_length; reflexivity).
  unfold field in L. rewrite firstn_length, skipn_length in L.
  assert (N : nth (length a) (field s cur w) 0%Z = c) by (rewrite E; apply nth_middle).
  assert (N2 : nth (length a) (field s cur w) 0%Z = nth (cur + length a) s 0%Z).
  { unfold field. rewrite <- (firstn_skipn cur s) at 2. rewrite app_nth2; rewrite firstn_length; [|lia].
    replace (cur + length a - min cur (length s)) with (length a) by lia.
    rewrite <- (firstn_skipn w (skipn cur s)) at 2. rewrite app_nth1; [reflexivity|]. rewrite firstn_length, skipn_length. lia. }
  split; [lia|]. split; [rewrite Nat.add_comm, cget_nth0 by lia; congruence|]. split.
  - unfold inc8. rewrite app_length. cbn [length]. rewrite Nat.mod_small by lia. reflexivity.
  - rewrite <- N, N2. apply cstr_nth_range; [assumption|lia].
Qed.
Lemma sget_end s cur w a : str_card s cur w -> field s cur w = a ->
  length a = w \/ (length a < w /\ cget s (length a + cur) = OK 0%Z).
Proof.
  intros (Hs & Hc & Hw) E.
  assert (L : length (field s cur w) = length a) by congruence.
  unfold field in L. rewrite firstn_length, skipn_length in L.
  destruct (Nat.eq_dec (length a) w) as [|n]; [left; lia|right]. split; [lia|].
  replace (length a + cur) with (length s) by lia. apply cget_end.
Qed.

Lemma string_width_spec s cur w : str_card s cur w ->
  exists buf t, card_parse_string_width s cur w = OK buf /\ cstring_at buf = OK t /\ trimmed (field s cur w) t.
Proof.
  intros H. unfold card_parse_string_width.
  destruct (split_span (fun c => c =? SPACE)%Z (field s cur w)) as (b & r & E & Hb & Hr). apply blanks_forallb in Hb.
  assert (LF : length (field s cur w) < FUEL).
  { unfold field. rewrite firstn_length. destruct H as (_ & _ & H). unfold FUEL. lia. }
  match goal with |- context [bind (?f FUEL 0) _] => set (skip := f) end.
  assert (Sk : skip FUEL 0 = OK (length b)).
  { assert (G : forall fuel a m, a ++ m = b -> length m < fuel -> skip fuel (length a) = OK (length b)).
    { induction fuel as [|fuel IH]; intros a m Em Hf; [lia|].
      change (skip (S fuel) (length a)) with (if length a <? w then do c <- cget s (length a + cur);
          if negb (c =? NUL)%Z && (c =? SPACE)%Z then skip fuel (inc8 (length a)) else OK (length a)
        else OK (length a)).
      destruct m as [|x m].
      - rewrite app_nil_r in Em. subst a. destruct r as [|y r].
        + rewrite app_nil_r in E. destruct (sget_end s cur w b H E) as [Q|[Q1 Q2]].
          * rewrite Q, Nat.ltb_irrefl. reflexivity.
          * rewrite Q2. destruct (length b <? w); reflexivity.
        + destruct (sget_field s cur w b y r H E) as (Q1 & Q2 & _). rewrite Q2.
          destruct (Nat.ltb_spec (length b) w); [|lia]. cbn [bind]. simpl in Hr. rewrite Hr, andb_false_r. reflexivity.
      - assert (E' : field s cur w = a ++ x :: m ++ r) by (rewrite E, <- Em, <- app_assoc; reflexivity).
        assert (x = SPACE) as ->.
        { unfold blanks in Hb. rewrite <- Em in Hb. apply Forall_app in Hb as [_ Hb]. inversion Hb; auto. }
        destruct (sget_field s cur w a SPACE (m ++ r) H E') as (Q1 & Q2 & Q3 & _). rewrite Q2, Q3.
        destruct (Nat.ltb_spec (length a) w); [|lia]. cbn [bind]. change (negb (SPACE =? NUL)%Z && (SPACE =? SPACE)%Z) with true. cbn iota.
        apply (IH (a ++ [SPACE]) m); [rewrite <- app_assoc; exact Em|simpl in Hf; lia]. }
    apply (G FUEL [] b eq_refl). rewrite E, app_length in LF. lia. }
  rewrite Sk. cbn [bind].
  destruct r as [|x r].
  - (* blank *)
    exists [NUL], []. rewrite app_nil_r in E.
    assert (B : (if length b =? w then OK true else do c <- cget s (length b + cur); OK (c =? NUL)%Z) = OK true).
    { destruct (sget_end s cur w b H E) as [Q|[Q1 Q2]]; [rewrite Q, Nat.eqb_refl; reflexivity|].
      rewrite Q2. destruct (length b =? w); reflexivity. }
    rewrite B. cbn [bind]. split; [reflexivity|]. split; [reflexivity|].
    exists b, []. rewrite app_nil_r, E. repeat split; [assumption|constructor|congruence|congruence].
  - destruct (sget_field s cur w b x r H E) as (Q1 & Q2 & Q3 & Q4).
    assert (B : (if length b =? w then OK true else do c <- cget s (length b + cur); OK (c =? NUL)%Z) = OK false).
    { destruct (Nat.eqb_spec (length b) w); [lia|]. rewrite Q2. cbn [bind]. unfold NUL. destruct (Z.eqb_spec x 0); [lia|reflexivity]. }
    rewrite B. cbn [bind]. cbn iota.
    destruct (last_split (x :: r)) as (q & b2 & Eq & Hb2 & Hq).
    assert (Nx : x <> SPACE) by (simpl in Hr; apply Z.eqb_neq in Hr; exact Hr).
    assert (Nq : q <> []).
    { intros ->. simpl in Eq. subst b2. inversion Hb2; congruence. }
    match goal with |- context [bind (?f FUEL (length b) (length b)) _] => set (lst := f) end.
    assert (La : lst FUEL (length b) (length b) = OK (length b + length q - 1)).
    { rewrite <- (last_nb_app q b2 (length b) (length b) Nq (Hq Nq) Hb2), <- Eq.
      assert (G : forall fuel m a e, field s cur w = a ++ m -> length m < fuel -> lst fuel (length a) e = OK (last_nb m (length a) e)).
      { induction fuel as [|fuel IH]; intros m a e Em Hf; [lia|].
        change (lst (S fuel) (length a) e) with (if length a <? w then do c <- cget s (length a + cur);
            if negb (c =? NUL)%Z then lst fuel (inc8 (length a)) (if negb (c =? SPACE)%Z then length a else e)
            else OK e else OK e).
        destruct m as [|y m].
        - rewrite app_nil_r in Em. destruct (sget_end s cur w a H Em) as [Q|[R1 R2]]; [rewrite Q, Nat.ltb_irrefl; reflexivity|].
          rewrite R2. destruct (length a <? w); reflexivity.
        - destruct (sget_field s cur w a y m H Em) as (R1 & R2 & R3 & R4). rewrite R2, R3.
          destruct (Nat.ltb_spec (length a) w); [|lia]. cbn [bind]. unfold NUL. destruct (Z.eqb_spec y 0); [lia|]. cbn [negb].
          rewrite (IH m (a ++ [y])); [|rewrite Em, <- app_assoc; reflexivity|simpl in Hf; lia].
          simpl last_nb. rewrite app_length. reflexivity. }
      apply G; [assumption|]. rewrite E, app_length in LF. lia. }
    rewrite La. cbn [bind].
    assert (Lq : 1 <= length q) by (destruct q; [congruence|simpl; lia]).
    replace (length b + length q - 1 - length b + 1) with (length q) by lia.
    assert (Ef : skipn cur s = b ++ q ++ b2 ++ skipn w (skipn cur s)).
    { rewrite <- (firstn_skipn w (skipn cur s)) at 1. fold (field s cur w). rewrite E, Eq, <- !app_assoc. reflexivity. }
    assert (Es : skipn (length b + cur) s = q ++ b2 ++ skipn w (skipn cur s)).
    { set (z := skipn w (skipn cur s)) in *. clearbody z. rewrite (Nat.add_comm (length b) cur), <- (skipn_skipn (length b) cur). rewrite Ef. rewrite skipn_app, skipn_all, Nat.sub_diag. reflexivity. }
    assert (Ls : length b + cur + length q <= length s).
    { pose proof (f_equal (@length Z) Ef) as L. rewrite skipn_length, !app_length in L. destruct H as (_ & H & _). lia. }
    rewrite string_clone_len_ok by (rewrite skipn_length, app_length; cbn [length]; lia).
    rewrite skipn_firstn_nul by lia. rewrite Es, firstn_app, firstn_all, Nat.sub_diag, firstn_O, app_nil_r.
    assert (Cq : is_cstr q).
    { unfold is_cstr. rewrite Forall_forall. intros z Hz.
      assert (In z s). { rewrite <- (firstn_skipn (length b + cur) s). apply in_or_app. right. rewrite Es. apply in_or_app. auto. }
      destruct H as (Hs & _). unfold is_cstr in Hs. rewrite Forall_forall in Hs. auto. }
    exists (q ++ [NUL]), q. split; [reflexivity|]. split; [apply cstring_at_cstr; assumption|].
    exists b, b2. rewrite E, Eq. repeat split; auto.
    destruct q; [congruence|]. injection Eq as -> _. assumption.
Qed.

Lemma whole_spec s : is_cstr s ->
  exists buf t, card_parse_whole s = OK buf /\ cstring_at buf = OK t /\ trimmed s t.
Proof.
  intros H. unfold card_parse_whole.
  destruct (split_span (fun c => c =? SPACE)%Z s) as (b & r & E & Hb & Hr).
  assert (Sc : scan (S (length s)) s (fun c => c =? SPACE)%Z 0 = OK (length b)).
  { pose proof (scan_spec [] b r (fun c => c =? SPACE)%Z (S (length s)) Hb) as G. simpl app in G. rewrite <- E in G. apply G.
    - destruct r; [reflexivity|exact Hr].
    - rewrite E, app_length. lia. }
  rewrite Sc, bind_OK. apply blanks_forallb in Hb.
  set (lst := fun fuel => whole_last fuel s). change (whole_last (S (length s)) s) with (lst (S (length s))).
  assert (G : forall fuel m a e, s = a ++ m -> length m < fuel -> lst fuel (length a) e = OK (last_nb m (length a) e)).
  { induction fuel as [|fuel IH]; intros m a e Em Hf; [lia|].
    change (lst (S fuel) (length a) e) with (do c <- cget s (length a);
        if negb (c =? NUL)%Z then lst fuel (length a + 1) (if negb (c =? SPACE)%Z then length a else e)
        else OK e).
    destruct m as [|y m].
    - rewrite app_nil_r in Em. rewrite <- Em, cget_end. reflexivity.
    - assert (C : cget s (length a) = OK y) by (rewrite Em; apply cget_app_at). rewrite C. cbn [bind].
      assert (Y : (0 < y < 256)%Z). { rewrite Em in H. apply Forall_app in H as [_ H]. inversion H; assumption. }
      unfold NUL. destruct (Z.eqb_spec y 0); [lia|]. cbn [negb].
      replace (length a + 1) with (length (a ++ [y])) by (rewrite app_length; reflexivity).
      rewrite (IH m (a ++ [y])); [|rewrite Em, <- app_assoc; reflexivity|simpl in Hf; lia].
      simpl last_nb. rewrite app_length. reflexivity. }
  rewrite (G (S (length s)) r b (length b) E) by (rewrite E, app_length; lia). rewrite bind_OK. clear G.
  destruct r as [|x r].
  - simpl last_nb. replace (length b - length b + 1) with 1 by lia. rewrite app_nil_r in E. subst b.
    rewrite string_clone_len_ok by (rewrite skipn_length, app_length; cbn [length]; lia).
    rewrite skipn_app, skipn_all, Nat.sub_diag. simpl.
    exists [NUL; NUL], []. split; [reflexivity|]. split; [reflexivity|]. exists s, []. rewrite app_nil_r. repeat split; auto; try (constructor; fail); congruence.
  - destruct (last_split (x :: r)) as (q & b2 & Eq & Hb2 & Hq).
    assert (Nx : x <> SPACE) by (simpl in Hr; apply Z.eqb_neq in Hr; exact Hr).
    assert (Nq : q <> []).
    { intros ->. simpl in Eq. subst b2. inversion Hb2; congruence. }
    rewrite Eq. rewrite last_nb_app by auto. rewrite Eq in E.
    assert (Lq : 1 <= length q) by (destruct q; [congruence|simpl; lia]).
    replace (length b + length q - 1 - length b + 1) with (length q) by lia.
    assert (Ls : length b + length q <= length s) by (rewrite E, !app_length; lia).
    rewrite string_clone_len_ok by (rewrite skipn_length, app_length; cbn [length]; lia).
    rewrite skipn_firstn_nul by lia.
    assert (Es : skipn (length b) s = q ++ b2) by (rewrite E, skipn_app, skipn_all, Nat.sub_diag; reflexivity).
    rewrite Es, firstn_app, firstn_all, Nat.sub_diag, firstn_O, app_nil_r.
    assert (Cq : is_cstr q) by (rewrite E in H; apply Forall_app in H as [_ H]; apply Forall_app in H as [H _]; exact H).
    exists (q ++ [NUL]), q. split; [reflexivity|]. split; [apply cstring_at_cstr; assumption|].
    exists b, b2. rewrite E. repeat split; auto.
    destruct q; [congruence|]. injection Eq as -> _. assumption.
Qed.

(** ** iteration *)
Lemma iterate_spec s w : is_cstr s -> 0 < w -> length s <= 255 -> forall k cur fuel, cur + k * w = length s -> k < fuel ->
  iterate fuel s w cur = OK (map (fun i => cur + i * w) (seq 0 k)).
Proof.
  intros Hs Hw Hl. induction k as [|k IH]; intros cur fuel E Hf; (destruct fuel as [|fuel]; [lia|]); cbn [iterate].
  - replace cur with (length s) by lia. unfold card_parse_done. rewrite cget_end. reflexivity.
  - assert (C : cur < length s) by nia.
    pose proof (cstr_nth_range s cur Hs C) as R.
    unfold card_parse_done. rewrite cget_nth0 by lia. cbn [bind]. unfold NUL. destruct (Z.eqb_spec (nth cur s 0%Z) 0); [lia|].
    unfold card_parse_next_width. rewrite cget_nth0 by lia. cbn [bind]. unfold NUL. destruct (Z.eqb_spec (nth cur s 0%Z) 0); [lia|]. cbn [negb].
    destruct (Nat.leb_spec cur (255 - w)); [|nia]. cbn [bind].
    rewrite (IH (cur + w) fuel) by nia. cbn [bind]. cbn [seq map]. f_equal. f_equal; [lia|].
    rewrite <- seq_shift, map_map. apply map_ext. intros a. lia.
Qed.
