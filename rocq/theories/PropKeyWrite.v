(** * Property C96: a key file that was written is read back *)
From Coq Require Import Sorting.Permutation.
From Verif Require Import CBase CBaseFacts SearchSpec LineSpec PathSpec CardModel CardSpec KeyTableModel KeyTableSpec KeyTableProofs PropKeyTable
  KeyParseModel KeyParseSpec KeyWriteSpec KeyWriteProofs PropKeyParse PropCard.

(** The file [file] was written with these blocks, in some layout. *)
Definition wrote (w : world) (file : cstr) (blocks : list block) : Prop :=
  exists eol remarks, line_end eol /\ writable_remarks remarks /\ w_file w file = Some (write eol remarks blocks).

Lemma wrote_parse cfg w g fuel file blocks : quiet_garbage g -> callable w file -> 1 <= fuel -> writable blocks -> wrote w file blocks ->
  key_file_parse_with_callback cfg w g fuel file = OK (map Ev (file_events blocks)).
Proof.
  intros Hg Hc Hfu Hw (eol & remarks & He & Hr & Hf).
  pose proof (written_lines eol (lines_of remarks blocks) He (lines_printing remarks blocks Hw Hr)) as EL.
  change (concat (map (fun l => l ++ eol) (lines_of remarks blocks)) ++ bs "*END") with (write eol remarks blocks) in EL.
  pose proof (sections_blocks remarks blocks (proj2 Hw) 0) as ES. fold (lines_of remarks blocks) in ES. rewrite <- EL in ES.
  rewrite (C19_events_partial cfg w g fuel file (write eol remarks blocks)); [..|rewrite ES; cbn [snd]]; auto.
  - unfold blocks_of. rewrite ES. cbn [fst snd app]. do 3 f_equal. rewrite <- (map_id blocks) at 2. apply map_ext_in. intros [n cards] Hin. f_equal.
    destruct Hw as [_ Hw]. rewrite Forall_forall in Hw. destruct (Hw _ Hin) as [_ Hcs]. cbn [snd] in Hcs. rewrite <- (map_id cards) at 2. apply map_ext_in. intros c Hc'.
    rewrite Forall_forall in Hcs. apply (card_line c (Hcs c Hc')).
  - split; [apply write_bytes; assumption|]. right. exists (concat (map (fun l => l ++ eol) (lines_of remarks blocks)) ++ bs "*EN"), 68%Z.
    split; [|discriminate]. unfold write. rewrite <- app_assoc. reflexivity.
  - rewrite EL. apply Forall_app. split; [apply lines_keyword_ok; exact Hw|]. constructor; [|constructor]. intros _ n E. injection E as <-. split; [discriminate|left; cbn; lia].
  - rewrite ES. intros E. injection E as E. exact (proj1 Hw E).
  - destruct Hw as [_ Hw]. revert Hw. apply Forall_impl. intros b [(_ & _ & _ & Hn) _]. left. exact Hn.
Qed.

(** The callbacks are the keywords and cards that were written. *)
Theorem C96_callbacks_partial : forall cfg w g fuel file blocks,
  quiet_garbage g -> callable w file -> 1 <= fuel -> writable blocks -> wrote w file blocks ->
  key_file_parse_with_callback cfg w g fuel file = OK (map Ev (file_events blocks)).
Proof. exact wrote_parse. Qed.
Print Assumptions C96_callbacks_partial.

Lemma parse_wrote cfg w g fuel file blocks : quiet_garbage g -> callable w file -> 1 <= fuel -> writable blocks -> wrote w file blocks ->
  key_file_parse cfg w g fuel file = key_file_parse_events (file_events blocks).
Proof.
  intros Hg Hc Hfu Hw Hf. unfold key_file_parse. rewrite (wrote_parse cfg w g fuel file blocks) by assumption. cbn [bind].
  assert (E1 : forall l, events_of (map Ev l) = l).
  { induction l as [|e l IH]; [reflexivity|]. unfold events_of in *. cbn. rewrite IH. reflexivity. }
  assert (E2 : forall l, existsb is_error (map Ev l) = false) by (induction l as [|e l IH]; [reflexivity|exact IH]).
  rewrite E1, E2. destruct (key_file_parse_events (file_events blocks)); reflexivity.
Qed.

(** The layout - line ends, remarks, the size of the chunks the file is read
    in, the name of the file - does not matter. *)
Theorem C96_layout_partial : forall cfg w g fuel file cfg' w' g' fuel' file' blocks,
  quiet_garbage g -> callable w file -> 1 <= fuel -> wrote w file blocks ->
  quiet_garbage g' -> callable w' file' -> 1 <= fuel' -> wrote w' file' blocks -> writable blocks ->
  key_file_parse cfg w g fuel file = key_file_parse cfg' w' g' fuel' file'.
Proof. intros. rewrite (parse_wrote cfg w g fuel file blocks), (parse_wrote cfg' w' g' fuel' file' blocks) by assumption. reflexivity. Qed.
Print Assumptions C96_layout_partial.

(** What was written is read back: all keywords, sorted, and a request for the
    [index]-th keyword of a name finds the [index]-th one that was written,
    with its cards; a request for a name that was not written finds nothing. *)
Theorem C96_read_back_partial : forall cfg w g fuel file blocks,
  quiet_garbage g -> callable w file -> 1 <= fuel -> writable blocks -> tame blocks -> wrote w file blocks ->
  exists ks, key_file_parse cfg w g fuel file = OK ks /\
    names_sorted (map kw_name ks) /\ Permutation blocks (map as_block ks) /\
    (forall name index b, nth_named blocks name index = Some b ->
       exists k, key_file_get (map kw_name ks) name index = OK (Some k) /\
         nth_error ks k = Some {| kw_name := name; kw_cards := snd b |}) /\
    (forall name index, ~ In name (map fst blocks) -> key_file_get (map kw_name ks) name index = OK None).
Proof.
  intros cfg w g fuel file blocks Hg Hc Hfu Hw Ht Hf. destruct (C11_keywords_defined_partial blocks Ht) as (ks & Ek & [Hs Hn]).
  exists ks. rewrite (parse_wrote cfg w g fuel file blocks) by assumption. split; [exact Ek|].
  assert (En : map kw_name ks = map fst (map as_block ks)) by (rewrite map_map; reflexivity).
  split; [rewrite En; exact Hs|]. pose proof (C11_keywords_permutation blocks ks Ek) as Hp. split; [exact Hp|]. split.
  - intros name index b Hb. unfold nth_named in Hb. rewrite <- Hn in Hb.
    assert (Hi : index < occurrences name (map kw_name ks)).
    { rewrite En, occurrences_blocks. apply nth_error_Some. rewrite Hb. discriminate. }
    destruct (C12_get_present (map kw_name ks) name index) as (k & E1 & E2 & E3); [rewrite En; exact Hs|exact Hi|].
    exists k. split; [exact E1|]. rewrite nth_error_map in E2. destruct (nth_error ks k) as [kw|] eqn:Ekw; [|discriminate]. cbn in E2. injection E2 as E2.
    assert (E4 : nth_error (map as_block ks) k = Some (as_block kw)) by (rewrite nth_error_map, Ekw; reflexivity).
    pose proof (filter_nth name (map as_block ks) k (as_block kw) E4 E2) as E5.
    rewrite En, firstn_map, occurrences_blocks in E3.
    assert (E6 : Some b = Some (as_block kw)) by (rewrite <- Hb, <- E5, <- E3; reflexivity). injection E6 as ->. destruct kw as [n cs]. cbn in *. subst n. reflexivity.
  - intros name index Hni. apply C12_get_absent_partial; [rewrite En; exact Hs| |].
    + rewrite En, occurrences_blocks, Hn. rewrite filter_none; [cbn; lia|]. intros b Hb. unfold named.
      destruct (list_eq_dec Z.eq_dec (fst b) name) as [<- |]; [|reflexivity]. exfalso. apply Hni, in_map, Hb.
    + left. intros I. apply Hni. rewrite En in I. apply (Permutation_in _ (Permutation_sym (Permutation_map fst Hp))). exact I.
Qed.
Print Assumptions C96_read_back_partial.

(** A table of numbers, one row per card, in columns of the width [width], is
    read back number by number: the columns are visited one after the other
    and every column yields its number. *)
Definition table (name : cstr) (width : nat) (rows : list (list Z)) : block := (name, map (row width) rows).
Definition fits (width : nat) (rows : list (list Z)) : Prop :=
  0 < width <= 18 /\ Forall (fun vs => Forall (fun v => length (numeral v) <= width) vs /\ length vs * width < 255) rows.

Lemma map_seq_list {A B} (f : nat -> B) (g : A -> B) vs : forall k, (forall i v, nth_error vs i = Some v -> f (k + i) = g v) -> map f (seq k (length vs)) = map g vs.
Proof.
  induction vs as [|v vs IH]; intros k H; [reflexivity|]. cbn [length seq map]. f_equal; [rewrite <- (Nat.add_0_r k) at 1; apply H; reflexivity|].
  apply IH. intros i x E. rewrite Nat.add_succ_comm. apply H. exact E.
Qed.

Theorem C96_row_partial : forall width vs, 0 < width <= 18 -> Forall (fun v => length (numeral v) <= width) vs -> length vs * width < 255 ->
  exists offsets, iterate (S (length vs)) (row width vs) width card_parse_begin = OK offsets /\
    map (fun o => card_parse_int_width (row width vs) o width) offsets = map (fun v => OK (Some v)) vs.
Proof.
  intros width vs Hw Hv Hl. pose proof (row_length width vs Hv) as L.
  exists (map (fun i => i * width) (seq 0 (length vs))). split.
  - apply C17_iteration_partial; [apply row_cstr|lia|exact L|lia].
  - rewrite map_map. apply map_seq_list. intros i v Ev. cbn [Nat.add].
    assert (Hi : i < length vs) by (apply nth_error_Some; congruence).
    assert (Hin : in_card (row width vs) (i * width) width).
    { split; [apply row_cstr|]. assert (i * width + width <= length vs * width) by nia. lia. }
    destruct (C14_int_fields_partial (row width vs) (i * width) width Hin ltac:(lia)) as (o & -> & Ho). f_equal. apply Ho.
    rewrite (row_field width vs Hv i v Ev). apply column_int.
Qed.
Print Assumptions C96_row_partial.

Theorem C96_numbers_partial : forall cfg w g fuel file blocks name width rows,
  quiet_garbage g -> callable w file -> 1 <= fuel -> writable blocks -> tame blocks -> wrote w file blocks ->
  nth_named blocks name 0 = Some (table name width rows) -> fits width rows ->
  exists ks k kw, key_file_parse cfg w g fuel file = OK ks /\
    key_file_get (map kw_name ks) name 0 = OK (Some k) /\ nth_error ks k = Some kw /\
    Forall2 (fun card vs => exists offsets, iterate (S (length vs)) card width card_parse_begin = OK offsets /\
               map (fun o => card_parse_int_width card o width) offsets = map (fun v => OK (Some v)) vs)
      (kw_cards kw) rows.
Proof.
  intros cfg w g fuel file blocks name width rows Hg Hc Hfu Hw Ht Hf Hb (Hwd & Hr).
  destruct (C96_read_back_partial cfg w g fuel file blocks Hg Hc Hfu Hw Ht Hf) as (ks & E & _ & _ & G & _).
  destruct (G name 0 _ Hb) as (k & E1 & E2). eexists ks, k, _. split; [exact E|]. split; [exact E1|]. split; [exact E2|].
  cbn [kw_cards table snd]. clear - Hwd Hr. induction Hr as [|vs rows [Hv Hl] H IH]; cbn [map]; constructor; [|exact IH].
  apply C96_row_partial; assumption.
Qed.
Print Assumptions C96_numbers_partial.

(** A name may occur twice in any case. *)
Theorem C96_twice_tame : forall blocks, (forall name, length (filter (named name) blocks) <= 2) -> tame blocks.
Proof.
  intros blocks H pre b post E H2. exfalso. specialize (H (fst b)). rewrite E, filter_app, app_length in H. cbn [filter] in H.
  unfold named in H at 2. destruct (list_eq_dec Z.eq_dec (fst b) (fst b)); [cbn [length] in H; lia|contradiction].
Qed.

(** ** A concrete case *)
Definition ex96 : list block := [table (bs "NODE") 8 [[1; -20; 300]; [40000; 0; 7]]%Z; (bs "TITLE", [bs "some text"; bs ""]); (bs "NODE", []); (bs "KEYWORD", [])].
Definition ex96_remarks (i : nat) : list (list Z) := if i =? 1 then [bs " a remark * $ +"; []] else [].
Definition ex96_content : list Z := write [CR; LF] ex96_remarks ex96.
Definition ex96_world : world := ex_world [(bs "a.k", ex96_content)] [].

Lemma ex96_writable : writable ex96.
Proof.
  assert (P : forall c, (33 <= c < 127)%Z -> printing c) by (intros c Hc; unfold printing, LF, CR; lia).
  assert (Nm : forall n, n <> [] -> forallb (fun c => (65 <=? c) && (c <=? 90))%Z n = true -> n <> bs "END" -> hd 0%Z n <> 73%Z -> writable_name n).
  { intros n H1 H2 H3 H4. split; [exact H1|]. split; [|split; [exact H3|]].
    - apply Forall_forall. intros c Hc. rewrite forallb_forall in H2. specialize (H2 c Hc). apply andb_prop in H2 as [Ha Hb].
      apply Z.leb_le in Ha, Hb. split; [apply P; lia|unfold SPACE, DOLLAR; lia].
    - intros [t ->]. apply H4. reflexivity. }
  split; [discriminate|]. unfold ex96. repeat apply Forall_cons; [..|apply Forall_nil]; (split; [apply Nm; [discriminate|reflexivity|discriminate|discriminate]|]); cbn [snd table].
  - cbn [map]. constructor; [apply row_writable|]. constructor; [apply row_writable|constructor].
  - constructor; [|constructor; [|constructor]].
    + split; [apply Forall_forall; intros c Hc; cbn in Hc; unfold printing, DOLLAR, LF, CR; intuition (subst; lia)|].
      intros b t E. destruct b as [|x b]; [discriminate|]. intros H. inversion H; subst. discriminate.
    + split; [constructor|]. intros b t E. destruct b; discriminate.
  - constructor.
  - constructor.
Qed.
Lemma ex96_wrote : wrote ex96_world (bs "a.k") ex96.
Proof.
  exists [CR; LF], ex96_remarks. split; [right; reflexivity|]. split; [|reflexivity].
  intros i. unfold ex96_remarks. destruct (i =? 1); [|constructor]. constructor; [|constructor; [|constructor]]; [|constructor].
  apply Forall_forall. intros c Hc. cbn in Hc. unfold printing, LF, CR. intuition (subst; lia).
Qed.
Lemma ex96_tame : tame ex96.
Proof.
  apply C96_twice_tame. intros name. destruct (list_eq_dec Z.eq_dec (bs "NODE") name) as [<- |N]; [vm_compute; lia|].
  unfold ex96, named. cbn [filter fst table]. destruct (list_eq_dec Z.eq_dec (bs "NODE") name); [contradiction|].
  destruct (list_eq_dec Z.eq_dec (bs "TITLE") name); destruct (list_eq_dec Z.eq_dec (bs "KEYWORD") name); cbn [length]; lia.
Qed.
Example C96_case_hypotheses : quiet_garbage (ex_g 7) /\ callable ex96_world (bs "a.k") /\ writable ex96 /\ tame ex96 /\ wrote ex96_world (bs "a.k") ex96 /\
  nth_named ex96 (bs "NODE") 0 = Some (table (bs "NODE") 8 [[1; -20; 300]; [40000; 0; 7]]%Z) /\ fits 8 [[1; -20; 300]; [40000; 0; 7]]%Z.
Proof.
  split; [apply ex_g_quiet; lia|]. split. { split; [repeat constructor|]. split; [exists (bs "home"); reflexivity|]. split; [repeat constructor|discriminate]. }
  split; [apply ex96_writable|]. split; [apply ex96_tame|]. split; [apply ex96_wrote|]. split; [reflexivity|]. split; [lia|].
  repeat constructor; vm_compute; lia.
Qed.
Example C96_case : key_file_parse (ex_cfg true) ex96_world (ex_g 7) 1 (bs "a.k") =
  OK [{| kw_name := bs "KEYWORD"; kw_cards := [] |}; {| kw_name := bs "NODE"; kw_cards := [bs "       1     -20     300"; bs "   40000       0       7"] |};
      {| kw_name := bs "NODE"; kw_cards := [] |}; {| kw_name := bs "TITLE"; kw_cards := [bs "some text"; bs ""] |}].
Proof. vm_compute. reflexivity. Qed.

(** What is missing: a name that is written three times and is the greatest
    name makes the parser read behind its array. *)
Theorem C96_three_times_refuted : forall cfg w g fuel file name c1 c2 c3,
  quiet_garbage g -> callable w file -> 1 <= fuel -> writable [(name, c1); (name, c2); (name, c3)] -> wrote w file [(name, c1); (name, c2); (name, c3)] ->
  key_file_parse cfg w g fuel file = UB.
Proof. intros. rewrite (parse_wrote cfg w g fuel file _) by eassumption. apply C11_third_duplicate_refuted. Qed.
Print Assumptions C96_three_times_refuted.
