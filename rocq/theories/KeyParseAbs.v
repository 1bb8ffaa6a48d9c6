(** * The parser on lines (no memory), and the proof that the code refines it *)
From Verif Require Import CBase CBaseFacts StringModel StringSpec StringProofs LineModel LineSpec LineProofs
  PathModel KeyTableModel KeyTableSpec CardSpec KeyParseModel KeyParseSpec KeyParseLow.

Record astate := {
  a_name : cstr; a_card : nat; a_multi : option (list Z); a_rec : recursion; a_log : list item }.

Definition a_emit (a : astate) (l : list item) : astate :=
  {| a_name := a_name a; a_card := a_card a; a_multi := a_multi a; a_rec := a_rec a; a_log := a_log a ++ l |}.
Definition a_setm (a : astate) (m : option (list Z)) : astate :=
  {| a_name := a_name a; a_card := a_card a; a_multi := m; a_rec := a_rec a; a_log := a_log a |}.
Definition a_setr (a : astate) (r : recursion) : astate :=
  {| a_name := a_name a; a_card := a_card a; a_multi := a_multi a; a_rec := r; a_log := a_log a |}.
Definition a_setc (a : astate) (c : nat) : astate :=
  {| a_name := a_name a; a_card := c; a_multi := a_multi a; a_rec := a_rec a; a_log := a_log a |}.
Definition a_setn (a : astate) (n : cstr) : astate :=
  {| a_name := n; a_card := a_card a; a_multi := a_multi a; a_rec := a_rec a; a_log := a_log a |}.

Definition has_dollar (l : list Z) : bool := existsb (fun c => c =? DOLLAR)%Z l.

Definition get {A} (r : res A) : option A := match r with OK a => Some a | _ => None end.

Notation "'opt' x <- a ; b" := (match a with Some x => b | None => None end)
  (at level 200, x pattern, a at level 100, b at level 200).

Definition amessage (a : astate) (file name : cstr) (m : item) : option astate :=
  if length file + length name <=? 900 then Some (a_emit a [m]) else None.

Section A.
Variable inc : recursion -> cstr -> option (list item * recursion).
Variable cfg : key_config.
Variable w : world.

Definition ainclude (file : cstr) (a : astate) (name : cstr) : option astate :=
  opt full <- get (find_include w (rc_paths (a_rec a)) name);
  opt a <- match full with
      | Some f => opt (l, r) <- inc (a_rec a) f; Some (a_setr (a_emit a l) r)
      | None => amessage a file name (if ignore_not_found_includes cfg then IgnoredNotFound name else NotFound name)
      end;
  Some (a_setc (a_setm a None) (a_card a + 1)).

Definition amultik {B} (a : astate) (l : list Z) (part : list Z -> option B) (k : cstr -> option B) : option B :=
  if has_dollar l then None
  else match amulti (a_multi a) l with
       | None => None
       | Some (inl p) => part p
       | Some (inr n) => k n
       end.

Definition adir (file : cstr) (a : astate) (name : cstr) : option astate :=
  opt a <- (if w_dir w name then Some (a_setr a (add_path (a_rec a) name))
            else amessage a file name (PathNotFound name));
  Some (a_setc (a_setm a None) (a_card a + 1)).

Definition skipped (x : option astate) : option (astate * option cstr) := option_map (fun a => (a, None)) x.

Definition acard_include (file : cstr) (a : astate) (l : list Z) : option (astate * option cstr) :=
  let n := a_name a in
  let part p := Some (a_setm a (Some p), None) in
  let first := amultik a l part (fun name => Some (a_setm a None, Some name)) in
  if parse_includes cfg then
    if same n (bs "INCLUDE") || (same n (bs "INCLUDE_BINARY") && (a_card a =? 0))
       || (same n (bs "INCLUDE_NASTRAN") && (a_card a =? 0)) then
      amultik a l part (fun name => skipped (ainclude file (a_setm a None) name))
    else if same n (bs "INCLUDE_PATH") then
      amultik a l part (fun name => skipped (adir file (a_setm a None) name))
    else if same n (bs "INCLUDE_PATH_RELATIVE") then
      amultik a l part (fun name => opt full <- get (path_join (rc_root (a_rec a)) name);
                          skipped (adir file (a_setm a None) full))
    else if same n (bs "INCLUDE_BINARY") then
      opt a <- amessage a file [] (CardCount (a_card a + 1)); Some (a_setc a (a_card a + 1), None)
    else if same n (bs "INCLUDE_NASTRAN") then
      opt a <- (if a_card a =? 1 then Some a else amessage a file [] (CardCount (a_card a + 1)));
      Some (a_setc a (a_card a + 1), None)
    else if prefixb (bs "INCLUDE_MULTISCALE") n then Some (a, Some (text l))
    else if a_card a =? 0 then first
    else Some (a, Some (text l))
  else if prefixb (bs "INCLUDE_MULTISCALE") n then Some (a, Some (text l))
  else if (same n (bs "INCLUDE") || same n (bs "INCLUDE_PATH") || same n (bs "INCLUDE_PATH_RELATIVE"))
          || (a_card a =? 0) then first
  else Some (a, Some (text l)).

Definition acard (file : cstr) (a : astate) (l : list Z) : option astate :=
  opt (a, c) <- (if prefixb (bs "INCLUDE") (a_name a) then acard_include file a l else Some (a, Some (text l)));
  match c with
  | None => Some a
  | Some c =>
    match a_multi a with
    | None => Some (a_setc (a_emit a [Ev (a_name a, Some c, Some (a_card a))]) (a_card a + 1))
    | Some _ => None
    end
  end.

Definition keyword_okb (l : list Z) : bool :=
  (length l <? 82) || match l with c :: _ => (c =? STAR)%Z | [] => false end.

Definition akeyword (a : astate) (n : cstr) : astate * bool :=
  let a := if negb (length (a_name a) =? 0) && (a_card a =? 0) then a_emit a [Ev (a_name a, None, None)] else a in
  let a := a_setn a n in
  if same n (bs "END") then (a, true) else (a_setc a 0, false).

Definition aline (file : cstr) (a : astate) (l : list Z) : option (astate * bool) :=
  if comment_line l then Some (a, false)
  else match keyword_of l with
       | Some n => if keyword_okb l then Some (akeyword a n) else None
       | None => opt a <- acard file a l; Some (a, false)
       end.

Fixpoint alines (file : cstr) (ls : list (list Z)) (a : astate) : option astate :=
  match ls with
  | [] => Some a
  | l :: t => opt (a, stop) <- aline file a l; if stop then Some a else alines file t a
  end.

Definition afinish (a : astate) : option astate :=
  if (a_card a =? 0) && negb (same (a_name a) (bs "END")) then
    match a_multi a with
    | None => Some (a_emit a [Ev (a_name a, None, None)])
    | Some _ => None
    end
  else Some a.
End A.

Fixpoint aparse (cfg : key_config) (w : world) (fuel : nat) (r : recursion) (file : cstr)
  : option (list item * recursion) :=
  match fuel with
  | O => None
  | S f =>
    match w_file w file with
    | None => Some ([OpenFailed], r)
    | Some content =>
      opt a <- alines (aparse cfg w f) cfg w file (map clean (text_lines content))
        {| a_name := []; a_card := 0; a_multi := None; a_rec := key_begin cfg w r; a_log := [] |};
      opt a <- afinish a;
      Some (a_log a, a_rec a)
    end
  end.

(** ** refinement *)
Record represents (st : parser) (a : astate) : Prop := {
  r_name : es_holds (p_name st) (a_name a);
  r_klen : p_klen st = length (a_name a);
  r_card : p_card st = a_card a;
  r_multi : multi_rep (p_multi st) (a_multi a);
  r_mcstr : match a_multi a with Some x => is_cstr x | None => True end;
  r_rec : p_rec st = a_rec a;
  r_log : p_log st = a_log a }.

Lemma rep_emit st a l : represents st a -> represents (emit st l) (a_emit a l).
Proof. intros []; split; cbn; auto. congruence. Qed.
Lemma rep_card st a k : represents st a -> represents (with_card st k) (a_setc a k).
Proof. intros []; split; cbn; auto. Qed.
Lemma rep_rec st a r : represents st a -> represents (with_rec st r) (a_setr a r).
Proof. intros []; split; cbn; auto. Qed.
Lemma rep_multi st a m x : represents st a -> multi_rep m x -> match x with Some y => is_cstr y | None => True end ->
  represents (with_multi st m) (a_setm a x).
Proof. intros []; split; cbn; auto. Qed.
Lemma rep_count st a : represents st a -> represents (count_line st) a.
Proof. intros []; split; cbn; auto. Qed.

Lemma zu_len_le f : forall n, zu_len f n <= f.
Proof. induction f as [|f IH]; intros n; cbn [zu_len]; [lia|]. destruct (n <? 10); [lia|]. specialize (IH (n / 10)). lia. Qed.

Lemma message_spec st a file name fixed m a' : represents st a -> amessage a file name m = Some a' -> fixed <= 100 ->
  exists st', push_f st file name fixed m = OK st' /\ represents st' a'.
Proof.
  intros R H Hf. unfold amessage in H. destruct (Nat.leb_spec (length file + length name) 900); [|discriminate].
  injection H as <-. unfold push_f, message_fits.
  pose proof (zu_len_le 20 (p_count st)). destruct (Nat.ltb_spec (length file + zu_len 20 (p_count st) + length name + fixed) 1024); [|lia].
  eexists; split; [reflexivity|]. apply rep_emit. assumption.
Qed.

Lemma has_dollar_false l : has_dollar l = false -> ~ In DOLLAR l.
Proof.
  unfold has_dollar. intros H I. assert (existsb (fun c => c =? DOLLAR)%Z l = true); [|congruence].
  apply existsb_exists. exists DOLLAR. split; [assumption|reflexivity].
Qed.

Lemma same_eq a b : same a b = true <-> a = b.
Proof. unfold same. destruct (list_eq_dec Z.eq_dec a b); split; congruence. Qed.

Lemma cstr_bs_INC : is_cstr (bs "INCLUDE") /\ is_cstr (bs "INCLUDE_BINARY") /\ is_cstr (bs "INCLUDE_NASTRAN") /\
  is_cstr (bs "INCLUDE_PATH") /\ is_cstr (bs "INCLUDE_PATH_RELATIVE") /\ is_cstr (bs "INCLUDE_MULTISCALE") /\ is_cstr (bs "END").
Proof. repeat split; repeat constructor. Qed.

Section R.
Variable include : recursion -> cstr -> res (list item * recursion).
Variable inc : recursion -> cstr -> option (list item * recursion).
Hypothesis Hinc : forall r f x, inc r f = Some x -> include r f = OK x.
Variable cfg : key_config.
Variable w : world.
Variable file : cstr.

Lemma multi_step st a l r {B} (part : list Z -> option B) (k : cstr -> option B) out :
  represents st a -> is_cstr l -> amultik a l part k = Some out ->
  exists m complete, parse_multi_line_string (p_multi st) (masked l ++ NUL :: r) (length l) = OK (m, complete) /\
    ((complete = false /\ exists p, part p = Some out /\ represents (with_multi st m) (a_setm a (Some p))) \/
     (complete = true /\ exists n, k n = Some out /\ sb_text m = OK n /\ is_cstr n /\ sb_buffer m <> None)).
Proof.
  intros R Hl H. unfold amultik in H. destruct (has_dollar l) eqn:Ed; [discriminate|].
  apply has_dollar_false in Ed. apply no_dollar_masked in Ed as [-> _].
  destruct (amulti (a_multi a) l) as [o|] eqn:Ea; [|discriminate].
  destruct (parse_multi_spec (p_multi st) (a_multi a) l (NUL :: r) o (r_multi _ _ R) Ea Hl (r_mcstr _ _ R)) as (m & E & Hb & Ho).
  rewrite E. eexists _, _; split; [reflexivity|]. destruct o as [p|n].
  - left. split; [reflexivity|]. destruct Ho as [Ho1 Ho2]. exists p. split; [exact H|]. apply rep_multi; assumption.
  - right. split; [reflexivity|]. destruct Ho as [Ho1 Ho2]. exists n. auto.
Qed.

Lemma include_step st a n m a' : represents st a -> sb_text m = OK n ->
  ainclude inc cfg w file (a_setm a None) n = Some a' ->
  exists st', key_include include cfg w file (with_multi st m) = OK st' /\ represents st' a'.
Proof.
  intros R Hn H. unfold key_include, ainclude in *. cbn [with_multi p_multi p_rec a_setm a_rec p_card] in *.
  rewrite Hn. cbn [bind]. rewrite (r_rec _ _ R).
  destruct (find_include w (rc_paths (a_rec a)) n) as [full| |]; cbn [get] in H; try discriminate. cbn [bind].
  destruct full as [f|].
  - destruct (inc (a_rec a) f) as [[l r']|] eqn:Ei; [|discriminate]. injection H as <-.
    rewrite (Hinc _ _ _ Ei). cbn [bind]. eexists; split; [reflexivity|].
    destruct R; split; cbn; auto; congruence.
  - set (it := if ignore_not_found_includes cfg then IgnoredNotFound n else NotFound n) in *.
    destruct (amessage (a_setm a None) file n it) as [a1|] eqn:Em; [|discriminate]. injection H as <-.
    assert (Epush : forall s, (if ignore_not_found_includes cfg then push_f s file n 24 (IgnoredNotFound n) else push_f s file n 24 (NotFound n)) = push_f s file n 24 it).
    { intros s. unfold it. destruct (ignore_not_found_includes cfg); reflexivity. }
    rewrite Epush. clear Epush. unfold amessage in Em.
    destruct (length file + length n <=? 900) eqn:E9; [|discriminate]. injection Em as <-.
    apply Nat.leb_le in E9. unfold push_f, message_fits. pose proof (zu_len_le 20 (p_count st)).
    cbn [with_multi p_count].
    destruct (Nat.ltb_spec (length file + zu_len 20 (p_count st) + length n + 24) 1024); [|lia]. cbn [bind].
    eexists; split; [reflexivity|]. destruct R; split; cbn; auto; congruence.
Qed.

Lemma dir_step st a n m fixed a' : represents st a -> adir w file (a_setm a None) n = Some a' -> fixed <= 100 ->
  exists st1, (if w_dir w n then OK (with_rec (with_multi st m) (add_path (p_rec (with_multi st m)) n))
            else push_f (with_multi st m) file n fixed (PathNotFound n)) = OK st1 /\
    represents (with_card (with_multi st1 string_builder_new) (p_card st1 + 1)) a'.
Proof.
  intros R H Hf. unfold adir in H. destruct (w_dir w n).
  - injection H as <-. eexists; split; [reflexivity|]. destruct R; split; cbn; auto; congruence.
  - unfold amessage in H. destruct (length file + length n <=? 900) eqn:E9; [|discriminate]. injection H as <-.
    apply Nat.leb_le in E9. unfold push_f, message_fits. pose proof (zu_len_le 20 (p_count st)).
    cbn [with_multi p_count].
    destruct (Nat.ltb_spec (length file + zu_len 20 (p_count st) + length n + fixed) 1024); [|lia].
    eexists; split; [reflexivity|]. destruct R; split; cbn; auto; congruence.
Qed.

(** result of the INCLUDE part of a card: skipped, or delivered as [c] *)
Definition card_result (st : parser) (a : astate) (c : option cstr) (l : list Z) (skip : bool) : Prop :=
  match c with
  | None => skip = true /\ represents st a
  | Some c => skip = false /\
      ((represents st a /\ c = text l) \/
       (a_multi a = None /\ exists st0, st = with_multi st0 (p_multi st) /\ represents (with_multi st0 string_builder_new) a /\
          sb_text (p_multi st) = OK c /\ sb_buffer (p_multi st) <> None))
  end.

Lemma card_first st a l r a' c :
  represents st a -> is_cstr l ->
  amultik a l (fun p => Some (a_setm a (Some p), None)) (fun name => Some (a_setm a None, Some name)) = Some (a', c) ->
  exists st' skip, (do ' (m, complete) <- parse_multi_line_string (p_multi st) (masked l ++ NUL :: r) (length l);
       OK (with_multi st m, negb complete)) = OK (st', skip) /\ card_result st' a' c l skip.
Proof.
  intros R Hl H. destruct (multi_step st a l r _ _ _ R Hl H) as (m & comp & E & D).
  rewrite E. cbn [bind]. destruct D as [(-> & p & D1 & D2)|(-> & n & D1 & D2 & D3 & D4)].
  - injection D1 as <- <-. eexists _, _; split; [reflexivity|]. cbn. auto.
  - injection D1 as <- <-. eexists _, _; split; [reflexivity|]. cbn. split; [reflexivity|]. right.
    split; [reflexivity|]. exists st. split; [reflexivity|]. split; [|auto].
    apply rep_multi; [assumption|reflexivity|exact I].
Qed.

Lemma card_include_spec st a l r a' c :
  represents st a -> is_cstr l -> acard_include inc cfg w file a l = Some (a', c) ->
  exists st' skip, key_include_card include cfg w file (masked l ++ NUL :: r) (length l) st = OK (st', skip) /\
    card_result st' a' c l skip.
Proof.
  intros R Hl H. unfold acard_include in H. unfold key_include_card.
  destruct cstr_bs_INC as (K1 & K2 & K3 & K4 & K5 & K6 & K7).
  assert (B : forall s, is_cstr (bs s) -> length (bs s) < 82 -> is_name st s = OK (same (a_name a) (bs s)))
    by (intros; apply is_name_spec; auto; apply R).
  assert (M : extra_string_starts_with (p_name st) (bs "INCLUDE_MULTISCALE") = OK (prefixb (bs "INCLUDE_MULTISCALE") (a_name a)))
    by (apply starts_with_spec; auto; [apply R|simpl; lia]).
  rewrite (r_card _ _ R).
  destruct (parse_includes cfg).
  - rewrite !B by (auto; simpl; lia). cbn [bind].
    destruct (same (a_name a) (bs "INCLUDE") || (same (a_name a) (bs "INCLUDE_BINARY") && (a_card a =? 0))
       || (same (a_name a) (bs "INCLUDE_NASTRAN") && (a_card a =? 0))).
    { destruct (multi_step st a l r _ _ _ R Hl H) as (m & comp & E & D). rewrite E. cbn [bind].
      destruct D as [(-> & p & D1 & D2)|(-> & n & D1 & D2 & D3 & D4)].
      - injection D1 as <- <-. eexists _, _; split; [reflexivity|]. cbn. auto.
      - unfold skipped in D1. destruct (ainclude inc cfg w file (a_setm a None) n) as [a1|] eqn:Ea; [|discriminate].
        injection D1 as <- <-. destruct (include_step st a n m a1 R D2 Ea) as (st' & E' & R').
        rewrite E'. cbn [bind]. eexists _, _; split; [reflexivity|]. cbn. auto. }
    destruct (same (a_name a) (bs "INCLUDE_PATH")).
    { destruct (multi_step st a l r _ _ _ R Hl H) as (m & comp & E & D). rewrite E. cbn [bind].
      destruct D as [(-> & p & D1 & D2)|(-> & n & D1 & D2 & D3 & D4)].
      - injection D1 as <- <-. eexists _, _; split; [reflexivity|]. cbn. auto.
      - unfold skipped in D1. destruct (adir w file (a_setm a None) n) as [a1|] eqn:Ea; [|discriminate].
        injection D1 as <- <-. rewrite D2. cbn [bind].
        destruct (dir_step st a n m 38 a1 R Ea ltac:(lia)) as (st1 & E1 & R1).
        rewrite E1. cbn [bind]. eexists _, _; split; [reflexivity|]. cbn [card_result]. auto. }
    try rewrite B by (auto; simpl; lia). cbn [bind].
    destruct (same (a_name a) (bs "INCLUDE_PATH_RELATIVE")).
    { destruct (multi_step st a l r _ _ _ R Hl H) as (m & comp & E & D). rewrite E. cbn [bind].
      destruct D as [(-> & p & D1 & D2)|(-> & n & D1 & D2 & D3 & D4)].
      - injection D1 as <- <-. eexists _, _; split; [reflexivity|]. cbn. auto.
      - rewrite D2. cbn [bind].
        change (rc_root (p_rec (with_multi st m))) with (rc_root (p_rec st)). rewrite (r_rec _ _ R).
        destruct (path_join (rc_root (a_rec a)) n) as [full| |]; cbn [get] in D1; try discriminate. cbn [bind].
        unfold skipped in D1. destruct (adir w file (a_setm a None) full) as [a1|] eqn:Ea; [|discriminate].
        injection D1 as <- <-.
        destruct (dir_step st a full m 47 a1 R Ea ltac:(lia)) as (st1 & E1 & R1).
        change (p_rec (with_multi st m)) with (p_rec st) in *. 
        rewrite E1. cbn [bind]. eexists _, _; split; [reflexivity|]. cbn [card_result]. auto. }
    destruct (same (a_name a) (bs "INCLUDE_BINARY")).
    { destruct (amessage a file [] (CardCount (a_card a + 1))) as [a1|] eqn:Em; [|discriminate]. injection H as <- <-.
      destruct (message_spec st a file [] 75 _ a1 R Em ltac:(lia)) as (st1 & E1 & R1). rewrite E1. cbn [bind].
      eexists _, _; split; [reflexivity|]. cbn [card_result]. split; [reflexivity|].
      rewrite (r_card _ _ R1). apply rep_card. exact R1. }
    destruct (same (a_name a) (bs "INCLUDE_NASTRAN")).
    { destruct (a_card a =? 1).
      - injection H as <- <-. cbn [bind]. eexists _, _; split; [reflexivity|]. cbn [card_result]. split; [reflexivity|].
        rewrite (r_card _ _ R). apply rep_card. exact R.
      - destruct (amessage a file [] (CardCount (a_card a + 1))) as [a1|] eqn:Em; [|discriminate]. injection H as <- <-.
        destruct (message_spec st a file [] 76 _ a1 R Em ltac:(lia)) as (st1 & E1 & R1). rewrite E1. cbn [bind].
        eexists _, _; split; [reflexivity|]. cbn [card_result]. split; [reflexivity|].
        rewrite (r_card _ _ R1). apply rep_card. exact R1. }
    rewrite M. cbn [bind].
    destruct (prefixb (bs "INCLUDE_MULTISCALE") (a_name a)).
    { injection H as <- <-. eexists _, _; split; [reflexivity|]. cbn [card_result]. auto. }
    destruct (a_card a =? 0).
    { apply (card_first st a l r a' c R Hl H). }
    injection H as <- <-. eexists _, _; split; [reflexivity|]. cbn [card_result]. auto.
  - rewrite M. cbn [bind].
    destruct (prefixb (bs "INCLUDE_MULTISCALE") (a_name a)).
    { injection H as <- <-. eexists _, _; split; [reflexivity|]. cbn [card_result]. auto. }
    rewrite !B by (auto; simpl; lia). cbn [bind].
    destruct ((same (a_name a) (bs "INCLUDE") || same (a_name a) (bs "INCLUDE_PATH") || same (a_name a) (bs "INCLUDE_PATH_RELATIVE"))
          || (a_card a =? 0)).
    { apply (card_first st a l r a' c R Hl H). }
    injection H as <- <-. eexists _, _; split; [reflexivity|]. cbn [card_result]. auto.
Qed.

Lemma masked_cstring l r : is_cstr l -> cstring_at (masked l ++ NUL :: r) = OK (text l).
Proof.
  intros H. destruct (masked_text l) as (u & -> & D).
  assert (Ht : Forall (fun b => b <> 0%Z) (text l)) by (apply is_cstr_nonzero, text_cstr; assumption).
  destruct D as [->|[v ->]].
  - rewrite app_nil_r. apply cstring_at_app. assumption.
  - rewrite <- app_assoc. cbn [app]. apply cstring_at_app. assumption.
Qed.

Lemma callback_step st a card c : represents st a -> a_multi a = None -> cstring_at card = OK c ->
  exists st', key_card_callback card st = OK st' /\
    represents st' (a_setc (a_emit a [Ev (a_name a, Some c, Some (a_card a))]) (a_card a + 1)).
Proof.
  intros R Hm Hc. unfold key_card_callback. pose proof (r_multi _ _ R) as Rm. rewrite Hm in Rm. cbn in Rm.
  rewrite Rm. cbn [string_builder_new sb_buffer]. rewrite Hc. cbn [bind].
  rewrite (callback_name_spec st (a_name a)) by apply R. cbn [bind].
  eexists; split; [reflexivity|]. rewrite (r_card _ _ R). apply rep_card, rep_emit. exact R.
Qed.

Lemma callback_step_multi st0 m a card c : represents (with_multi st0 string_builder_new) a ->
  sb_text m = OK c -> sb_buffer m <> None ->
  exists st', key_card_callback card (with_multi st0 m) = OK st' /\
    represents st' (a_setc (a_emit a [Ev (a_name a, Some c, Some (a_card a))]) (a_card a + 1)).
Proof.
  intros R Hc Hb. unfold key_card_callback. cbn [with_multi p_multi]. unfold sb_text in Hc.
  destruct (sb_buffer m) as [buf|]; [|contradiction]. rewrite Hc. cbn [bind].
  assert (Ew : with_multi (with_multi st0 m) string_builder_new = with_multi st0 string_builder_new) by reflexivity.
  unfold with_multi in Ew at 1 2. cbn [p_name p_klen p_card p_count p_multi p_rec p_log] in Ew.
  set (s := {| p_name := _ |}) in *.
  rewrite (callback_name_spec _ (a_name a)) by apply R. cbn [bind].
  eexists; split; [reflexivity|].
  pose proof (r_card _ _ R) as Rc. unfold with_multi in Rc. cbn [p_card] in Rc.
  assert (R2 : represents (with_card (emit (with_multi st0 string_builder_new) [Ev (a_name a, Some c, Some (a_card a))]) (a_card a + 1))
     (a_setc (a_emit a [Ev (a_name a, Some c, Some (a_card a))]) (a_card a + 1))) by (apply rep_card, rep_emit; exact R).
  unfold s. cbn [with_multi p_card emit with_card] in *. rewrite Rc. exact R2.
Qed.

Lemma card_spec st a l line a' : represents st a -> is_cstr l -> line_mem line l ->
  acard inc cfg w file a l = Some a' ->
  exists st', key_card include cfg w file line (length l) st = OK st' /\ represents st' a'.
Proof.
  intros R Hl Hm H. unfold key_card, acard in *. destruct (card_mem_spec line l Hm) as (r & E). rewrite E. cbn [bind].
  destruct cstr_bs_INC as (K1 & _).
  rewrite (starts_with_spec (p_name st) (a_name a) (bs "INCLUDE")) by first [apply R|exact K1|simpl; lia]. cbn [bind].
  destruct (prefixb (bs "INCLUDE") (a_name a)).
  - destruct (acard_include inc cfg w file a l) as [[a1 c]|] eqn:Ea; [|discriminate].
    destruct (card_include_spec st a l r a1 c R Hl Ea) as (st1 & skip & E1 & Cr). rewrite E1. cbn [bind].
    destruct c as [c|]; cbn [card_result] in Cr.
    + destruct Cr as (-> & D). destruct (a_multi a1) eqn:Em; [discriminate|]. injection H as <-.
      destruct D as [(R1 & ->)|(_ & st0 & Es & R0 & Ht & Hb)].
      * apply callback_step; auto. apply masked_cstring. assumption.
      * rewrite Es. apply callback_step_multi; assumption.
    + destruct Cr as (-> & R1). injection H as <-. eauto.
  - destruct (a_multi a) eqn:Em; [discriminate|]. injection H as <-. cbn [bind].
    apply callback_step; auto. apply masked_cstring. assumption.
Qed.

Lemma word_split r : exists s, r = word r ++ s /\ Forall (fun x => x <> SPACE) (word r) /\ (s = [] \/ exists t, s = SPACE :: t).
Proof.
  induction r as [|c r (s & E & F & D)]; cbn [word].
  - exists []. auto.
  - destruct (Z.eqb_spec c SPACE) as [->|n].
    + exists (SPACE :: r). split; [reflexivity|]. split; [constructor|]. right. eauto.
    + exists s. cbn [app]. rewrite <- E. split; [reflexivity|]. split; [constructor; assumption|assumption].
Qed.

Lemma keyword_shape l n : keyword_of l = Some n ->
  exists b r, text l = b ++ STAR :: r /\ Forall (fun x => x = SPACE) b /\ n = word r.
Proof.
  unfold keyword_of. destruct (drop_blanks_split (text l)) as (b & E & F & _).
  destruct (drop_blanks (text l)) as [|c r] eqn:Ed; [discriminate|].
  destruct (Z.eqb_spec c STAR) as [->|]; [|discriminate]. intros H. injection H as <-.
  exists b, r. auto.
Qed.

Lemma keyword_spec st a l line n : represents st a -> is_cstr l -> line_mem line l ->
  keyword_of l = Some n -> keyword_okb l = true ->
  exists i st', es_blanks (S (es_size line)) line 0 = OK i /\ extra_string_get line i = OK STAR /\
    key_keyword line (length l) i st = OK (st', snd (akeyword a n)) /\ represents st' (fst (akeyword a n)).
Proof.
  intros R Hl Hm Hk Hok. destruct (keyword_shape l n Hk) as (b & r & Et & Fb & En).
  destruct (line_mem_text line l Hm) as (Hb & rest & Em).
  pose proof (text_cstr l Hl) as Htc.
  exists (length b).
  assert (Em' : es_mem line = [] ++ b ++ STAR :: (r ++ NUL :: rest)).
  { rewrite Em, Et, <- app_assoc. reflexivity. }
  assert (Eblanks : es_blanks (S (es_size line)) line 0 = OK (length b)).
  { apply (es_blanks_spec line Hb b _ [] STAR _ Em' Fb); [discriminate|].
    rewrite es_size_mem, Em'. cbn [app]. rewrite app_length. lia. }
  assert (Eget : extra_string_get line (length b) = OK STAR) by (apply (es_get_at _ _ _ _ Hb Em')).
  assert (Ltl : length (text l) <= length l) by (destruct (text_prefix l) as [u Eu]; rewrite Eu at 2; rewrite app_length; lia).
  assert (Loff : length b + 1 <= length l) by (rewrite Et, app_length in Ltl; cbn [length] in Ltl; lia).
  assert (Hcopy : length l < 82 \/ (b = [] /\ 82 <= length l)).
  { unfold keyword_okb in Hok. destruct (Nat.ltb_spec (length l) 82) as [|Hge]; [left; assumption|right].
    cbn [orb] in Hok. destruct l as [|c l]; [discriminate|]. apply Z.eqb_eq in Hok. subst c.
    cbn [text] in Et. replace (STAR =? DOLLAR)%Z with false in Et by reflexivity.
    destruct b as [|x b]; [split; [reflexivity|assumption]|]. injection Et as Ex _. inversion Fb; subst. discriminate. }
  assert (Hcopy1 : length l < 82 \/ (length b + 1) + 81 <= length l)
    by (destruct Hcopy as [|[-> ?]]; [left; assumption|right; cbn [length]; lia]).
  assert (Hcopy2 : length b + 1 <= 82) by (destruct Hcopy as [|[-> ?]]; cbn [length]; lia).
  destruct Hm as (_ & rest0 & Em0).
  assert (Lmem : length l < length (es_mem line)) by (rewrite Em0, app_length, masked_length; cbn; lia).
  unfold key_keyword.
  set (st1 := if negb (p_klen st =? 0) && (p_card st =? 0) then emit st [Ev (a_name a, None, None)] else st).
  set (a1 := if negb (length (a_name a) =? 0) && (a_card a =? 0) then a_emit a [Ev (a_name a, None, None)] else a).
  assert (E1 : (if negb (p_klen st =? 0) && (p_card st =? 0) then do n0 <- callback_name st; OK (emit st [Ev (n0, None, None)]) else OK st) = OK st1).
  { unfold st1. rewrite (callback_name_spec st (a_name a)) by apply R. destruct (negb (p_klen st =? 0) && (p_card st =? 0)); reflexivity. }
  assert (R1 : represents st1 a1).
  { unfold st1, a1. rewrite (r_klen _ _ R), (r_card _ _ R).
    destruct (negb (length (a_name a) =? 0) && (a_card a =? 0)); [apply rep_emit|]; exact R. }
  rewrite E1. cbn [bind].
  assert (Hd : length (es_buffer (p_name st1)) = 82) by apply R1.
  destruct (es_copy_mem (p_name st1) line (length l) (length b + 1) Hb Hd Loff Lmem Hcopy1 Hcopy2) as (kn & q & Ec & Hbk & Ek).
  rewrite Ec. cbn [bind].
  rewrite <- skipn_firstn_comm in Ek.
  assert (Ef : firstn (length l + 1) (es_mem line) = masked l ++ [NUL]).
  { rewrite Em0, firstn_app, firstn_all2 by (rewrite masked_length; lia). rewrite masked_length.
    replace (length l + 1 - length l) with 1 by lia. reflexivity. }
  rewrite Ef in Ek.
  assert (Esh : exists v, masked l ++ [NUL] = (b ++ [STAR]) ++ r ++ NUL :: v).
  { destruct (masked_text l) as (u & -> & [->|[v ->]]); rewrite Et.
    - exists []. rewrite app_nil_r, <- !app_assoc. reflexivity.
    - exists (v ++ [NUL]). rewrite <- !app_assoc. reflexivity. }
  destruct Esh as [v Esh]. rewrite Esh in Ek.
  replace (length b + 1) with (length (b ++ [STAR])) in Ek at 1 by (rewrite app_length; reflexivity).
  rewrite skipn_app_exact in Ek.
  destruct (word_split r) as (s & Er & Fw & Ds).
  assert (Hnc : is_cstr n).
  { rewrite Et in Htc. apply is_cstr_app in Htc as [_ Htc]. inversion Htc as [|? ? _ Hr]; subst.
    rewrite Er in Hr. apply is_cstr_app in Hr. tauto. }
  assert (Ekn : exists c q', es_mem kn = [] ++ n ++ c :: q' /\ (c = SPACE \/ c = NUL)).
  { rewrite Ek, Er, <- En. destruct Ds as [->|[t ->]].
    - exists NUL, (v ++ q). rewrite app_nil_r, <- app_assoc. auto.
    - exists SPACE, (t ++ (NUL :: v) ++ q). rewrite <- !app_assoc. cbn [app]. auto. }
  destruct Ekn as (c & q' & Ekn & Hc).
  assert (Fn : Forall (fun x => x <> SPACE /\ x <> NUL) n).
  { rewrite <- En in Fw. apply Forall_forall. intros x Hx. split.
    - rewrite Forall_forall in Fw. apply Fw. assumption.
    - unfold is_cstr in Hnc. rewrite Forall_forall in Hnc. specialize (Hnc x Hx). cbv beta in Hnc. unfold NUL. lia. }
  assert (Ew : es_word (S (es_size kn)) kn 0 = OK (length n)).
  { apply (es_word_spec kn Hbk n _ [] c q' Ekn Fn Hc). rewrite es_size_mem, Ekn. cbn [app]. rewrite app_length. lia. }
  rewrite Ew. cbn [bind].
  destruct (put_spec kn (length n) NUL n c q' Hbk Ekn eq_refl) as (kn' & Es & Em2 & Hb2).
  rewrite Es. cbn [bind].
  assert (Hn' : es_holds kn' n) by (split; [assumption|]; split; [assumption|]; exists q'; exact Em2).
  assert (R2 : represents (with_name st1 kn' (length n)) (a_setn a1 n)).
  { destruct R1; split; cbn; auto. }
  assert (Estop : (if length n =? 3 then do c0 <- extra_string_compare kn' (bs "END"); OK (c0 =? 0)%Z else OK false) = OK (same n (bs "END"))).
  { destruct (Nat.eqb_spec (length n) 3) as [E3|E3].
    - change (is_name (with_name st1 kn' (length n)) "END" = OK (same n (bs "END"))).
      apply is_name_spec; [exact Hn'|apply cstr_bs_INC|simpl; lia].
    - unfold same. destruct (list_eq_dec Z.eq_dec n (bs "END")) as [->|]; [exfalso; apply E3; reflexivity|reflexivity]. }
  rewrite Estop. cbn [bind]. unfold akeyword. fold a1.
  destruct (same n (bs "END")); eexists; (split; [exact Eblanks|]); (split; [exact Eget|]); (split; [reflexivity|]); cbn [fst].
  - exact R2.
  - apply rep_card. exact R2.
Qed.

(** not a keyword line: either empty or the first non-blank is not '*' *)
Lemma not_keyword_spec l line : is_cstr l -> line_mem line l -> keyword_of l = None ->
  (if negb (length l =? 0) then
     do i <- es_blanks (S (es_size line)) line 0;
     do c <- extra_string_get line i; OK (if (c =? STAR)%Z then Some i else None)
   else OK None) = OK None.
Proof.
  intros Hl Hm Hk. destruct (Nat.eqb_spec (length l) 0); [reflexivity|]. cbn [negb].
  destruct (line_mem_text line l Hm) as (Hb & rest & Em).
  unfold keyword_of in Hk. destruct (drop_blanks_split (text l)) as (b & E & F & D).
  pose proof (text_cstr l Hl) as Htc.
  assert (X : exists c q, es_mem line = [] ++ b ++ c :: q /\ c <> SPACE /\ c <> STAR).
  { destruct (drop_blanks (text l)) as [|c r] eqn:Ed.
    - rewrite app_nil_r in E. exists NUL, rest. rewrite Em, E. repeat split; discriminate.
    - exists c, (r ++ NUL :: rest). rewrite Em, E, <- app_assoc. split; [reflexivity|].
      destruct D as [D|(c' & t & D & Hc)]; [discriminate|]. injection D as -> ->. split; [assumption|].
      destruct (Z.eqb_spec c' STAR); [discriminate|assumption]. }
  destruct X as (c & q & Ex & Hc1 & Hc2).
  assert (Eb : es_blanks (S (es_size line)) line 0 = OK (length b)).
  { apply (es_blanks_spec line Hb b _ [] c q Ex F Hc1). rewrite es_size_mem, Ex. cbn [app]. rewrite app_length. lia. }
  rewrite Eb. cbn [bind]. rewrite (es_get_at line b c q Hb Ex). cbn [bind].
  destruct (Z.eqb_spec c STAR); [contradiction|reflexivity].
Qed.

Lemma line_spec st a l line a' stop : represents st a -> is_cstr l ->
  mem_holds line l -> (exists rest, es_mem line = l ++ 0%Z :: rest) ->
  aline inc cfg w file a l = Some (a', stop) ->
  exists line' st', key_line include cfg w file line (length l) (first_dollar l) st = OK (line', st', stop) /\
    represents st' a' /\ mem_holds line' [].
Proof.
  intros R0 Hl Hmh (rest & Hmem) H. unfold aline in H. unfold key_line.
  apply (rep_count st a) in R0 as R. cbv zeta.
  destruct Hmh as (Hb & x & rr & Hx & Hlf1 & Hlf2).
  assert (Hmem_nil : mem_holds line []).
  { apply (mem_holds_nil line l). split; [assumption|]. exists x, rr. auto. }
  destruct (first_dollar l) as [k|] eqn:Ek.
  - destruct k as [|k].
    + assert (comment_line l = true).
      { destruct l as [|c l]; [discriminate|]. cbn [first_dollar] in Ek. cbn [comment_line].
        destruct (c =? DOLLAR)%Z; [reflexivity|]. destruct (first_dollar l); discriminate. }
      rewrite H0 in H. injection H as <- <-. eexists _, _; split; [reflexivity|]. auto.
    + assert (Ecl : comment_line l = false).
      { destruct l as [|c l]; [discriminate|]. cbn [first_dollar] in Ek. cbn [comment_line].
        destruct (c =? DOLLAR)%Z; [discriminate|reflexivity]. }
      rewrite Ecl in H.
      pose proof (text_dollar l) as T. rewrite Ek in T. destruct T as [T Tk].
      assert (Esp : exists y, l = firstn (S k) l ++ y :: skipn (S (S k)) l).
      { exists (nth (S k) l 0%Z). rewrite <- (skipn_nth l (S k) 0%Z) by assumption. symmetry. apply firstn_skipn. }
      destruct Esp as [y Esp].
      assert (Em1 : es_mem line = firstn (S k) l ++ y :: (skipn (S (S k)) l ++ 0%Z :: rest)).
      { rewrite Hmem. rewrite Esp at 1. rewrite <- app_assoc. reflexivity. }
      destruct (put_spec line (S k) NUL (firstn (S k) l) y _ Hb Em1) as (line' & El & Em' & Hb').
      { rewrite firstn_length. lia. }
      rewrite El. cbn [bind].
      assert (Hlm : line_mem line' l).
      { split; [assumption|]. exists rest. unfold masked. rewrite Ek, Em', <- app_assoc. reflexivity. }
      assert (Hmh' : mem_holds line' []).
      { apply (mem_holds_nil line' (firstn (S k) l)). split; [assumption|]. eexists _, _; split; [exact Em'|].
        assert (noLF (l ++ x :: rr)) by (apply noLF_app; auto).
        assert (N2 : noLF (firstn (S k) l ++ y :: (skipn (S (S k)) l ++ 0%Z :: rest))) by (rewrite <- Em1, Hx; assumption).
        apply noLF_app in N2 as [N2 N3]. split; [assumption|]. inversion N3; subst. constructor; [discriminate|assumption]. }
      destruct (keyword_of l) as [n|] eqn:Ekw.
      * destruct (keyword_okb l) eqn:Eok; [|discriminate]. injection H as Ha.
        destruct (keyword_spec (count_line st) a l line' n R Hl Hlm Ekw Eok) as (i & st' & E1 & E2 & E3 & R').
        destruct (Nat.eqb_spec (length l) 0); [lia|]. cbn [negb].
        rewrite E1. cbn [bind]. rewrite E2. cbn [bind]. change (STAR =? STAR)%Z with true. cbv iota. rewrite E3. cbn [bind].
        rewrite Ha in *. cbn [fst snd] in *. eauto.
      * rewrite (not_keyword_spec l line' Hl Hlm Ekw). cbn [bind].
        destruct (acard inc cfg w file a l) as [a1|] eqn:Ea; [|discriminate]. injection H as <- <-.
        destruct (card_spec (count_line st) a l line' a1 R Hl Hlm Ea) as (st' & E1 & R'). rewrite E1. cbn [bind]. eauto.
  - assert (Ecl : comment_line l = false).
    { destruct l as [|c l]; [reflexivity|]. cbn [first_dollar] in Ek. cbn [comment_line].
      destruct (c =? DOLLAR)%Z; [discriminate|reflexivity]. }
    rewrite Ecl in H. cbn [bind].
    assert (Hlm : line_mem line l).
    { split; [assumption|]. exists rest. unfold masked. rewrite Ek. exact Hmem. }
    destruct (keyword_of l) as [n|] eqn:Ekw.
    * destruct (keyword_okb l) eqn:Eok; [|discriminate]. injection H as Ha.
      destruct (keyword_spec (count_line st) a l line n R Hl Hlm Ekw Eok) as (i & st' & E1 & E2 & E3 & R').
      destruct (Nat.eqb_spec (length l) 0) as [e|]; [destruct l; [discriminate|discriminate]|]. cbn [negb].
      rewrite E1. cbn [bind]. rewrite E2. cbn [bind]. change (STAR =? STAR)%Z with true. cbv iota. rewrite E3. cbn [bind].
      rewrite Ha in *. cbn [fst snd] in *. eauto.
    * rewrite (not_keyword_spec l line Hl Hlm Ekw). cbn [bind].
      destruct (acard inc cfg w file a l) as [a1|] eqn:Ea; [|discriminate]. injection H as <- <-.
      destruct (card_spec (count_line st) a l line a1 R Hl Hlm Ea) as (st' & E1 & R'). rewrite E1. cbn [bind]. eauto.
Qed.

Lemma lines_spec g (Hg : quiet_garbage g) am : forall ls lr st a a' fuel,
  mem_holds (lr_line lr) [] -> stream_ok (g_N g) (am = true) lr -> expected am lr = ls ->
  Forall is_cstr (map clean ls) -> length (remaining lr) + 2 <= fuel \/ (ls = [] /\ 1 <= fuel) ->
  represents st a -> alines inc cfg w file (map clean ls) a = Some a' ->
  exists st', key_lines include cfg w g file fuel lr st = OK st' /\ represents st' a'.
Proof.
  destruct Hg as (HN & _ & _ & Hf & _).
  induction ls as [|l ls IH]; intros lr st a a' fuel Hm Hs Hex Hc Hfu R H;
    (destruct fuel as [|fuel]; [lia|]); cbn [key_lines].
  - cbn in H. injection H as <-.
    destruct (read_line_next _ _ HN Hf am lr [] Hm Hs) as [(_ & lr' & E)|(l & ls & lr' & E & _)]; [|congruence].
    rewrite E. cbn [bind]. eauto.
  - destruct (read_line_next _ _ HN Hf am lr [] Hm Hs) as [(E & _)|(l' & ls' & lr' & E & E2 & Hm' & Hsh & Hs' & Hex' & Hlen)]; [congruence|].
    rewrite Hex in E. injection E as <- <-. rewrite E2. cbn [bind].
    unfold seen, shows in Hsh. destruct Hsh as (Sh1 & Sh2 & Sh3). rewrite Sh1, Sh3.
    cbn [map] in H, Hc. inversion Hc as [|? ? Hc1 Hc2]; subst. cbn [alines] in H.
    destruct (aline inc cfg w file a (clean l)) as [[a1 stop]|] eqn:Ea; [|discriminate].
    destruct (line_spec st a (clean l) (lr_line lr') a1 stop R Hc1 Hm' Sh2 Ea) as (line' & st' & E1 & R' & Hmn).
    rewrite E1. cbn [bind]. destruct stop; [injection H as <-; eauto|].
    apply (IH (with_line lr' line') st' a1 a' fuel); auto.
    destruct Hlen as [Hlen|[Hr He]].
    + left. change (remaining (with_line lr' line')) with (remaining lr'). destruct Hfu as [|[? _]]; [lia|discriminate].
    + right. split; [exact He|]. destruct Hfu as [|[? _]]; [lia|discriminate].
Qed.

Lemma finish_step st a a' : represents st a -> afinish a = Some a' ->
  exists st', key_finish st = OK st' /\ represents st' a'.
Proof.
  intros R H. unfold key_finish, afinish in *. rewrite (r_card _ _ R), (r_klen _ _ R).
  assert (E : (if a_card a =? 0 then if negb (length (a_name a) =? 3) then OK true
        else do c <- extra_string_compare (p_name st) (bs "END"); OK (negb (c =? 0)%Z) else OK false)
      = OK ((a_card a =? 0) && negb (same (a_name a) (bs "END")))).
  { destruct (a_card a =? 0); [|reflexivity]. cbn [andb]. destruct (Nat.eqb_spec (length (a_name a)) 3) as [e|e]; cbn [negb].
    - pose proof (is_name_spec st (a_name a) "END" (r_name _ _ R)) as X. unfold is_name in X.
      destruct cstr_bs_INC as (_ & _ & _ & _ & _ & _ & K). specialize (X K ltac:(simpl; lia)).
      destruct (extra_string_compare (p_name st) (bs "END")) as [c| |]; cbn [bind] in *; try discriminate.
      assert (X' : (c =? 0)%Z = same (a_name a) (bs "END")) by congruence; rewrite X'. reflexivity.
    - unfold same. destruct (list_eq_dec Z.eq_dec (a_name a) (bs "END")) as [E|]; [rewrite E in e; exfalso; apply e; reflexivity|reflexivity]. }
  rewrite E. cbn [bind].
  destruct ((a_card a =? 0) && negb (same (a_name a) (bs "END"))).
  - destruct (a_multi a) eqn:Em; [discriminate|]. injection H as <-.
    rewrite (callback_name_spec st (a_name a)) by apply R. cbn [bind].
    pose proof (r_multi _ _ R) as Rm. rewrite Em in Rm. cbn in Rm. rewrite Rm. cbn [string_builder_new sb_buffer bind].
    eexists; split; [reflexivity|]. destruct R; split; cbn; auto; try congruence.
  - injection H as <-. eauto.
Qed.
End R.

(** ** files *)
Lemma Forall_clean P l : Forall P l -> Forall P (clean l).
Proof. unfold clean. rewrite !Forall_forall. intros H x Hx. apply filter_In in Hx. apply H. tauto. Qed.

Lemma Forall_pieces P t : Forall P t -> Forall (Forall P) (pieces t).
Proof.
  induction t as [|c t IH]; intros H; cbn [pieces]; [repeat constructor|].
  inversion H as [|? ? H1 H2]; subst. specialize (IH H2). destruct (c =? LF)%Z; [constructor; [constructor|assumption]|].
  destruct (pieces t); [repeat constructor; assumption|]. inversion IH; subst. constructor; [constructor|]; assumption.
Qed.

Lemma Forall_removelast {A} (P : A -> Prop) l : Forall P l -> Forall P (removelast l).
Proof.
  induction l as [|x l IH]; intros H; [constructor|]. inversion H; subst. cbn [removelast].
  destruct l; [constructor|]. constructor; [assumption|]. apply IH. assumption.
Qed.

Lemma cstr_lines content : Forall (fun b => (0 < b < 256)%Z) content -> Forall is_cstr (map clean (text_lines content)).
Proof.
  intros H. apply Forall_map. apply (Forall_impl _ (Forall_clean (fun b => (0 < b < 256)%Z))).
  unfold text_lines. destruct (list_eq_dec Z.eq_dec _ []); [apply Forall_removelast|]; apply Forall_pieces; assumption.
Qed.

Lemma last_pieces_snoc t c : c <> LF -> last (pieces (t ++ [c])) [] <> [].
Proof.
  intros Hc. induction t as [|x t IH]; cbn [app pieces].
  - destruct (Z.eqb_spec c LF); [contradiction|]. discriminate.
  - pose proof (pieces_nonempty (t ++ [c])) as N. destruct (x =? LF)%Z.
    + destruct (pieces (t ++ [c])); [contradiction|]. exact IH.
    + destruct (pieces (t ++ [c])) as [|p [|q ps]]; [contradiction| |exact IH]. discriminate.
Qed.

(** one file, for any handling of includes *)
Lemma file_refines cfg w g (Hg : quiet_garbage g) include inc
  (Hinc : forall r f x, inc r f = Some x -> include r f = OK x) r file content a a2 :
  ordinary (g_N g) content ->
  alines inc cfg w file (map clean (text_lines content))
    {| a_name := []; a_card := 0; a_multi := None; a_rec := key_begin cfg w r; a_log := [] |} = Some a ->
  afinish a = Some a2 ->
  (do st <- key_lines include cfg w g file (length content + 2) (new_line_reader content (g_line g) (g_index g))
     {| p_name := {| es_buffer := NUL :: g_name g; es_extra := [] |}; p_klen := 0;
        p_card := 0; p_count := 0; p_multi := string_builder_new; p_rec := key_begin cfg w r; p_log := [] |};
   do st <- key_finish st; OK (p_log st, p_rec st)) = OK (a_log a2, a_rec a2).
Proof.
  intros (Hc & Hreg) Ea Efin. pose proof Hg as (HN & Hst & Hlf & Hf & Hname).
  set (am := length content mod g_N g =? 0).
  set (lr := new_line_reader content (g_line g) (g_index g)).
  set (a0 := {| a_name := [] |}) in *.
  set (st0 := {| p_name := _ |}).
  assert (Hex : expected am lr = text_lines content).
  { unfold expected, lr, am, remaining, new_line_reader. cbn [lr_index lr_chunk lr_rest lr_eof negb].
    rewrite skipn_nil, andb_true_r. cbn [app].
    destruct (Nat.eqb_spec (length content mod g_N g) 0) as [e|]; [|reflexivity].
    destruct Hreg as [|(t & c & -> & Hlast)]; [contradiction|].
    unfold text_lines. pose proof (last_pieces_snoc t c Hlast).
    destruct (list_eq_dec Z.eq_dec (last (pieces (t ++ [c])) []) []); [contradiction|reflexivity]. }
  destruct (lines_spec include inc Hinc cfg w file g Hg am (text_lines content)
    lr st0 a0 a (length content + 2)) as (st1 & E1 & R1).
  - unfold lr, new_line_reader. cbn [lr_line]. split; [exact Hst|].
    unfold es_mem. cbn [es_buffer es_extra]. rewrite app_nil_r.
    destruct (g_line g) as [|x0 rr]; [discriminate|]. exists x0, rr. repeat split; auto. constructor.
  - unfold stream_ok, lr, new_line_reader; cbn. split; [discriminate|]. intros _. unfold am. rewrite Nat.eqb_eq. split.
    + intros E. exists (length content / g_N g). pose proof (Nat.div_mod (length content) (g_N g) ltac:(lia)). nia.
    + intros [k ->]. apply Nat.mod_mul. lia.
  - exact Hex.
  - apply cstr_lines. assumption.
  - left. unfold remaining, lr, new_line_reader. cbn. rewrite skipn_nil. cbn. lia.
  - split; cbn; auto. split; [cbn; lia|]. split; [constructor|]. exists (g_name g). unfold es_mem. cbn. rewrite app_nil_r. reflexivity.
  - exact Ea.
  - rewrite E1. cbn [bind]. destruct (finish_step include inc Hinc file st1 a a2 R1 Efin) as (st2 & E2 & R2).
    rewrite E2. cbn [bind]. rewrite (r_log _ _ R2), (r_rec _ _ R2). reflexivity.
Qed.

Theorem parse_refines cfg w g (Hg : quiet_garbage g)
  (Hw : forall f c, w_file w f = Some c -> ordinary (g_N g) c) fuel : forall r file x,
  aparse cfg w fuel r file = Some x -> key_parse_rec cfg w g fuel r file = OK x.
Proof.
  induction fuel as [|fuel IH]; intros r file x H; [discriminate|]. cbn [aparse key_parse_rec] in *.
  destruct (w_file w file) as [content|] eqn:Ef; [|injection H as <-; reflexivity].
  destruct (alines (aparse cfg w fuel) cfg w file (map clean (text_lines content)) _) as [a|] eqn:Ea; [|discriminate].
  destruct (afinish a) as [a2|] eqn:Efin; [|discriminate]. injection H as <-.
  apply (file_refines cfg w g Hg _ _ IH r file content a a2 (Hw _ _ Ef) Ea Efin).
Qed.
