(** * Proofs for the written key files *)
From Coq Require Import DecimalString DecimalFacts DecimalZ DecimalPos.
From Verif Require Import CBase CBaseFacts LineSpec CardModel CardSpec KeyTableModel KeyTableSpec KeyParseModel KeyParseSpec KeyWriteSpec.

(** ** Lines *)
Lemma pieces_app l t : Forall (fun c => c <> LF) l -> pieces (l ++ LF :: t) = l :: pieces t.
Proof.
  induction l as [|c l IH]; intros H; cbn [app pieces].
  - destruct (Z.eqb_spec LF LF); [reflexivity|contradiction].
  - inversion H; subst. rewrite IH by assumption. destruct (Z.eqb_spec c LF); [contradiction|reflexivity].
Qed.
Lemma pieces_one l : Forall (fun c => c <> LF) l -> pieces l = [l].
Proof.
  induction l as [|c l IH]; intros H; cbn [pieces]; [reflexivity|]. inversion H; subst. rewrite IH by assumption.
  destruct (Z.eqb_spec c LF); [contradiction|reflexivity].
Qed.
Lemma pieces_lines eol k ls z : eol = k ++ [LF] -> Forall (fun c => c <> LF) k -> Forall (Forall (fun c => c <> LF)) ls -> Forall (fun c => c <> LF) z ->
  pieces (concat (map (fun l => l ++ eol) ls) ++ z) = map (fun l => l ++ k) ls ++ [z].
Proof.
  intros -> Hk H Hz. induction H as [|l ls Hl H IH]; cbn [map concat app]; [apply pieces_one; exact Hz|].
  rewrite <- app_assoc, (app_assoc l), <- (app_assoc (l ++ k)). cbn [app]. rewrite pieces_app; [|apply Forall_app; auto]. rewrite IH. reflexivity.
Qed.
Lemma clean_id l : Forall (fun c => c <> CR) l -> clean l = l.
Proof.
  unfold clean. induction 1 as [|c l Hc H IH]; [reflexivity|]. cbn [filter]. destruct (Z.eqb_spec c CR); [contradiction|]. cbn [negb]. congruence.
Qed.
Lemma clean_app a b : clean (a ++ b) = clean a ++ clean b.
Proof. apply filter_app. Qed.

Lemma written_lines eol ls : line_end eol -> Forall (Forall printing) ls ->
  map clean (text_lines (concat (map (fun l => l ++ eol) ls) ++ bs "*END")) = ls ++ [bs "*END"].
Proof.
  intros He H.
  assert (X : exists k, eol = k ++ [LF] /\ Forall (fun c => c <> LF) k /\ clean k = []).
  { destruct He as [-> | ->]; [exists []|exists [CR]]; repeat split; repeat constructor; discriminate. }
  destruct X as (k & Ek & Hk & Ck).
  unfold text_lines. rewrite (pieces_lines eol k ls (bs "*END") Ek Hk).
  - rewrite last_last. destruct (list_eq_dec Z.eq_dec (bs "*END") []); [discriminate|].
    rewrite map_app, map_map. cbn [map]. f_equal. clear - H Ck. induction H as [|l ls Hl H IH]; [reflexivity|]. cbn [map]. rewrite IH, clean_app, Ck, app_nil_r, clean_id; [reflexivity|].
    apply (Forall_impl _ (P := printing)); [|exact Hl]. intros c (_ & _ & Hc). exact Hc.
  - apply (Forall_impl _ (P := Forall printing)); [|exact H]. intros l. apply Forall_impl. intros c (_ & Hc & _). exact Hc.
  - repeat constructor; discriminate.
Qed.

(** ** Sections *)
Lemma text_id l : Forall (fun c => c <> DOLLAR) l -> text l = l.
Proof. induction 1 as [|c l Hc H IH]; [reflexivity|]. cbn [text]. destruct (Z.eqb_spec c DOLLAR); [contradiction|]. congruence. Qed.
Lemma word_id l : Forall (fun c => c <> SPACE) l -> word l = l.
Proof. induction 1 as [|c l Hc H IH]; [reflexivity|]. cbn [word]. destruct (Z.eqb_spec c SPACE); [contradiction|]. congruence. Qed.
Lemma no_remark l : Forall (fun c => c <> DOLLAR) l -> comment_line l = false.
Proof. destruct 1 as [|c l Hc H]; [reflexivity|]. cbn. apply Z.eqb_neq. exact Hc. Qed.
Lemma name_line n : writable_name n -> comment_line (STAR :: n) = false /\ keyword_of (STAR :: n) = Some n /\ same n (bs "END") = false.
Proof.
  intros (Hn & Hc & He & _). split; [reflexivity|]. split.
  - unfold keyword_of. rewrite text_id.
    + cbn [drop_blanks]. change (STAR =? SPACE)%Z with false. cbn [Z.eqb]. change (STAR =? STAR)%Z with true. cbn. f_equal. apply word_id.
      revert Hc. apply Forall_impl. tauto.
    + constructor; [discriminate|]. revert Hc. apply Forall_impl. tauto.
  - unfold same. destruct (list_eq_dec Z.eq_dec n (bs "END")); [contradiction|reflexivity].
Qed.
Lemma drop_blanks_split l : exists b, l = b ++ drop_blanks l /\ Forall (fun x => x = SPACE) b.
Proof.
  induction l as [|c l (b & E & Hb)]; [exists []; auto|]. cbn [drop_blanks]. destruct (Z.eqb_spec c SPACE) as [-> |N].
  - exists (SPACE :: b). cbn [app]. split; [congruence|auto].
  - exists []. auto.
Qed.
Lemma card_line c : writable_card c -> comment_line c = false /\ keyword_of c = None /\ text c = c.
Proof.
  intros (Hc & Hs). assert (Hd : Forall (fun x => x <> DOLLAR) c) by (revert Hc; apply Forall_impl; tauto).
  split; [apply no_remark; exact Hd|]. split; [|apply text_id; exact Hd]. unfold keyword_of. rewrite text_id by exact Hd.
  destruct (drop_blanks_split c) as (b & E & Hb). destruct (drop_blanks c) as [|x r]; [reflexivity|].
  destruct (Z.eqb_spec x STAR) as [-> |]; [|reflexivity]. exfalso. exact (Hs b r E Hb).
Qed.

Lemma sections_remarks rs ls : sections (map (cons DOLLAR) rs ++ ls) = sections ls.
Proof. induction rs as [|r rs IH]; [reflexivity|]. cbn [map app sections comment_line]. change (DOLLAR =? DOLLAR)%Z with true. exact IH. Qed.
Lemma weave_app remarks a b : forall i, weave remarks i (a ++ b) = weave remarks i a ++ weave remarks (i + length a) b.
Proof.
  induction a as [|l a IH]; intros i; cbn [app weave length]; [rewrite Nat.add_0_r; reflexivity|].
  rewrite IH, <- app_assoc. cbn [app]. replace (i + S (length a)) with (i + 1 + length a) by lia. reflexivity.
Qed.
Lemma sections_cards remarks cards rest : Forall writable_card cards -> forall i,
  sections (weave remarks i cards ++ rest) = (cards ++ fst (sections rest), snd (sections rest)).
Proof.
  induction 1 as [|c cards Hc H IH]; intros i; cbn [weave app]; [destruct (sections rest); reflexivity|].
  rewrite <- app_assoc, sections_remarks. cbn [app sections]. destruct (card_line c Hc) as (-> & -> & _). rewrite IH. reflexivity.
Qed.
Lemma sections_blocks remarks blocks : Forall (fun b : block => writable_name (fst b) /\ Forall writable_card (snd b)) blocks -> forall i,
  sections (weave remarks i (concat (map block_lines blocks)) ++ [bs "*END"]) = ([], blocks).
Proof.
  induction 1 as [|[n cards] blocks [Hn Hc] H IH]; intros i; cbn [map concat].
  - reflexivity.
  - rewrite weave_app. unfold block_lines at 1. cbn [fst snd weave] in *. rewrite <- !app_assoc, sections_remarks. cbn [app].
    cbn [sections]. destruct (name_line n Hn) as (-> & -> & ->). rewrite sections_cards by exact Hc. rewrite IH. cbn [fst snd]. rewrite app_nil_r. reflexivity.
Qed.
Lemma weave_forall (P : list Z -> Prop) remarks ls : (forall i, Forall P (map (cons DOLLAR) (remarks i))) -> Forall P ls -> forall i, Forall P (weave remarks i ls).
Proof. intros Hr. induction 1 as [|l ls Hl H IH]; intros i; cbn [weave]; [constructor|]. apply Forall_app. split; [apply Hr|]. constructor; auto. Qed.
Lemma blocks_lines (P : list Z -> Prop) blocks : Forall (fun b : block => P (STAR :: fst b) /\ Forall P (snd b)) blocks ->
  Forall P (concat (map block_lines blocks)).
Proof. induction 1 as [|b blocks [H1 H2] H IH]; cbn [map concat]; [constructor|]. apply Forall_app. split; [|exact IH]. constructor; assumption. Qed.

Definition lines_of remarks blocks := weave remarks 0 (concat (map block_lines blocks)).
Lemma lines_printing remarks blocks : writable blocks -> writable_remarks remarks -> Forall (Forall printing) (lines_of remarks blocks).
Proof.
  intros [_ Hw] Hr. apply weave_forall.
  - intros i. apply Forall_map. apply (Forall_impl _ (P := Forall printing)); [|apply Hr]. intros l Hl. constructor; [|exact Hl]. repeat split; discriminate.
  - apply blocks_lines. revert Hw. apply Forall_impl. intros [n cards] [(_ & Hn & _) Hc]. cbn [fst snd] in *. split.
    + constructor; [repeat split; discriminate|]. revert Hn. apply Forall_impl. tauto.
    + revert Hc. apply Forall_impl. intros c [Hc _]. revert Hc. apply Forall_impl. tauto.
Qed.
Lemma lines_keyword_ok remarks blocks : writable blocks -> Forall keyword_line_ok (lines_of remarks blocks).
Proof.
  intros [_ Hw]. apply weave_forall.
  - intros i. apply Forall_map. apply Forall_forall. intros l _ H. discriminate.
  - apply blocks_lines. revert Hw. apply Forall_impl. intros [n cards] [Hn Hc]. cbn [fst snd] in *. split.
    + intros _ m E. destruct (name_line n Hn) as (_ & E2 & _). rewrite E2 in E. injection E as <-. split; [exact (proj1 Hn)|]. right. eexists. reflexivity.
    + revert Hc. apply Forall_impl. intros c Hc _ m E. destruct (card_line c Hc) as (_ & E2 & _). congruence.
Qed.

Lemma write_bytes eol remarks blocks : line_end eol -> writable blocks -> writable_remarks remarks ->
  Forall (fun b => (0 < b < 256)%Z) (write eol remarks blocks).
Proof.
  intros He Hw Hr. unfold write. apply Forall_app. split; [|repeat constructor]. apply Forall_concat. apply Forall_map.
  apply (Forall_impl _ (P := Forall printing)); [|exact (lines_printing remarks blocks Hw Hr)]. intros l Hl. apply Forall_app. split.
  - revert Hl. apply Forall_impl. unfold printing. tauto.
  - destruct He as [-> | ->]; repeat constructor.
Qed.

(** ** Numerals *)
Definition digit_bytes (d : Decimal.uint) : list Z := bs (NilEmpty.string_of_uint d).
Lemma dec_from l : forall a, fold_left (fun acc c => acc * 10 + (c - 48))%Z l a = (a * 10 ^ Z.of_nat (length l) + dec l)%Z.
Proof.
  unfold dec. induction l as [|c l IH]; intros a; cbn [fold_left length]; [rewrite Z.pow_0_r; lia|].
  rewrite IH, (IH (0 * 10 + (c - 48))%Z). rewrite Nat2Z.inj_succ, Z.pow_succ_r by lia. ring.
Qed.
Lemma digit_bytes_digits d : digits (digit_bytes d).
Proof. unfold digits, digit_bytes. induction d; cbn; constructor; try exact IHd; try lia. Qed.
Lemma of_uint_acc_bytes d : forall acc, Z.pos (Pos.of_uint_acc d acc) = fold_left (fun acc c => acc * 10 + (c - 48))%Z (digit_bytes d) (Z.pos acc).
Proof.
  induction d; intros acc; [reflexivity|..]; (cbn [Pos.of_uint_acc]; rewrite IHd; unfold digit_bytes; cbn [NilEmpty.string_of_uint bs fold_left]; f_equal; (match goal with |- _ = (_ + (?x - 48))%Z => let y := eval vm_compute in x in change x with y end); lia).
Qed.
Lemma of_uint_bytes d : Z.of_N (Pos.of_uint d) = dec (digit_bytes d).
Proof.
  unfold dec. induction d; [reflexivity|exact IHd|..]; (cbn [Pos.of_uint]; cbn [Z.of_N]; rewrite of_uint_acc_bytes; unfold digit_bytes; cbn [NilEmpty.string_of_uint bs fold_left]; f_equal; (match goal with |- _ = (_ + (?x - 48))%Z => let y := eval vm_compute in x in change x with y end); lia).
Qed.
Lemma digit_bytes_zero d : NilZero.string_of_uint d = NilEmpty.string_of_uint d \/ (d = Decimal.Nil /\ NilZero.string_of_uint d = "0"%string).
Proof. destruct d; auto. Qed.
Lemma numeral_split v : exists neg ds, numeral v = neg ++ ds /\ digits ds /\ ds <> [] /\
  ((neg = [] /\ v = dec ds) \/ (neg = [MINUS] /\ v = (- dec ds)%Z)).
Proof.
  pose proof (DecimalZ.of_to v) as E. unfold numeral, NilZero.string_of_int.
  assert (X : forall d, exists ds, bs (NilZero.string_of_uint d) = ds /\ digits ds /\ ds <> [] /\ Z.of_N (Pos.of_uint d) = dec ds).
  { intros d. destruct d as [|d|d|d|d|d|d|d|d|d|d]; [exists [48%Z]; repeat split; [repeat constructor; lia|discriminate]|..];
      (eexists; split; [reflexivity|]; split; [apply digit_bytes_digits|]; split; [discriminate|apply of_uint_bytes]). }
  destruct (Z.to_int v) as [d|d]; destruct (X d) as (ds & E1 & D & N & V).
  - exists [], ds. rewrite E1. repeat split; auto. left. split; [reflexivity|]. rewrite <- E, <- V. reflexivity.
  - exists [MINUS], ds. cbn [bs]. rewrite E1. repeat split; auto. right. split; [reflexivity|]. rewrite <- E, <- V. cbn. unfold Z.of_uint. destruct (Pos.of_uint d); reflexivity.
Qed.
Lemma blanks_repeat n : blanks (repeat SPACE n).
Proof. apply Forall_forall. intros x H. apply repeat_spec in H. exact H. Qed.
Lemma column_int w v : int_text (column w v) v.
Proof.
  destruct (numeral_split v) as (neg & ds & E & D & N & V). unfold column. rewrite E at 2.
  exists (repeat SPACE (w - length (numeral v))), neg, ds, []. rewrite app_nil_r. split; [reflexivity|]. split; [apply blanks_repeat|].
  split; [exact D|]. split; [left; reflexivity|]. destruct V as [[-> V]|[-> V]]; [left|right]; auto.
Qed.
Lemma column_length w v : length (numeral v) <= w -> length (column w v) = w.
Proof. intros H. unfold column. rewrite app_length, repeat_length. lia. Qed.
Lemma row_length w vs : Forall (fun v => length (numeral v) <= w) vs -> length (row w vs) = length vs * w.
Proof. induction 1 as [|v vs Hv H IH]; [reflexivity|]. unfold row in *. cbn [map concat length]. rewrite app_length, IH, column_length by exact Hv. lia. Qed.
Lemma row_field w vs : Forall (fun v => length (numeral v) <= w) vs -> forall i v, nth_error vs i = Some v -> field (row w vs) (i * w) w = column w v.
Proof.
  induction 1 as [|a vs Ha H IH]; intros i v E; [destruct i; discriminate|]. unfold row, field in *. cbn [map concat].
  destruct i as [|i]; cbn [nth_error] in E.
  - injection E as <-. cbn [Nat.mul skipn]. rewrite firstn_app, column_length, Nat.sub_diag by exact Ha. rewrite app_nil_r. apply firstn_all2. rewrite column_length by exact Ha. lia.
  - rewrite skipn_app, column_length by exact Ha. rewrite skipn_all2 by (rewrite column_length by exact Ha; lia). cbn [app].
    replace (S i * w - w) with (i * w) by lia. apply IH. exact E.
Qed.
(** the characters of a row *)
Definition numeric (c : Z) : Prop := c = SPACE \/ c = MINUS \/ (48 <= c <= 57)%Z.
Lemma row_numeric w vs : Forall numeric (row w vs).
Proof.
  unfold row. apply Forall_concat, Forall_map, Forall_forall. intros v _. unfold column. destruct (numeral_split v) as (neg & ds & E & D & _ & V).
  apply Forall_app. split.
  - apply (Forall_impl _ (P := fun c => c = SPACE)); [|apply blanks_repeat]. intros c ->. left. reflexivity.
  - rewrite E. apply Forall_app. split.
    + destruct V as [[-> _]|[-> _]]; [constructor|]. constructor; [right; left; reflexivity|constructor].
    + revert D. apply Forall_impl. intros c Hc. right. right. exact Hc.
Qed.
Lemma numeric_printing c : numeric c -> printing c /\ c <> DOLLAR /\ c <> STAR.
Proof. unfold numeric, printing, SPACE, MINUS, DOLLAR, STAR, LF, CR. lia. Qed.
Lemma row_writable w vs : writable_card (row w vs).
Proof.
  split.
  - apply (Forall_impl _ (P := numeric)); [|apply row_numeric]. intros c Hc. apply numeric_printing in Hc. tauto.
  - intros b t E. assert (H : Forall numeric (row w vs)) by apply row_numeric. rewrite E in H. apply Forall_app in H as [_ H]. inversion H as [|? ? Hc]; subst.
    apply numeric_printing in Hc as (_ & _ & Hc). contradiction.
Qed.
Lemma row_cstr w vs : is_cstr (row w vs).
Proof. unfold is_cstr. apply (Forall_impl _ (P := numeric)); [|apply row_numeric]. intros c Hc. apply numeric_printing in Hc as ((Hc & _) & _). exact Hc. Qed.

(** ** The blocks of a name *)
Lemma filter_names name (bl : list block) : filter (fun x => if list_eq_dec Z.eq_dec x name then true else false) (map fst bl) = map fst (filter (named name) bl).
Proof. induction bl as [|b bl IH]; [reflexivity|]. cbn [map filter]. unfold named at 1. destruct (list_eq_dec Z.eq_dec (fst b) name); cbn [map]; congruence. Qed.
Lemma occurrences_blocks name (bl : list block) : occurrences name (map fst bl) = length (filter (named name) bl).
Proof. unfold occurrences. rewrite filter_names, map_length. reflexivity. Qed.
Lemma filter_nth name (bl : list block) k b : nth_error bl k = Some b -> fst b = name ->
  nth_error (filter (named name) bl) (length (filter (named name) (firstn k bl))) = Some b.
Proof.
  intros E Hb. rewrite <- (firstn_skipn k bl) at 1. rewrite filter_app, nth_error_app2, Nat.sub_diag by lia.
  destruct (nth_error_split bl k E) as (a & c & -> & L). rewrite <- L, skipn_app, skipn_all, Nat.sub_diag. cbn [app skipn filter].
  unfold named at 1. rewrite Hb. destruct (list_eq_dec Z.eq_dec name name); [reflexivity|contradiction].
Qed.
