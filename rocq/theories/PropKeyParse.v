(** * Properties C19, C20, C21: the callbacks of a key file *)
From Verif Require Import CBase CBaseFacts StringModel LineSpec PathModel PathSpec KeyTableModel KeyTableSpec KeyTableProofs PropKeyTable CardSpec
  KeyParseModel KeyParseSpec KeyParseAbs KeyParseProofs KeyRootProofs.

(** The name of the file and the working directory. *)
Definition callable (w : world) (file : cstr) : Prop :=
  is_cstr (w_cwd w) /\ absolute (w_cwd w) /\ is_cstr file /\ elements file <> [].

Lemma parse_simple cfg w g fuel file content outs :
  quiet_garbage g -> callable w file -> w_file w file = Some content -> ordinary (g_N g) content -> 1 <= fuel ->
  Forall keyword_line_ok (map clean (text_lines content)) ->
  sections (map clean (text_lines content)) <> ([], []) ->
  Forall2 block_delivers (snd (sections (map clean (text_lines content)))) outs ->
  (parse_includes cfg = true -> Forall (fun b => ~ resolved (fst b)) (snd (sections (map clean (text_lines content))))) ->
  key_file_parse_with_callback cfg w g fuel file =
  OK (map Ev (card_events [] 0 (map text (fst (sections (map clean (text_lines content))))) ++ file_events outs)).
Proof.
  intros Hg (Hw & Hwa & Hf & Hel) Ef Ho Hfu Hok Hne Hb Hr.
  assert (Hfne : file <> []) by (intros ->; apply Hel; reflexivity).
  destruct (key_root_spec w file Hw Hwa Hf Hfne Hel) as (root & Er & _).
  unfold key_file_parse_with_callback. rewrite Ef, Er. cbn [bind].
  destruct fuel as [|fuel]; [lia|]. cbn [key_parse_rec]. rewrite Ef.
  set (r := {| rc_paths := [] |}).
  destruct (sections (map clean (text_lines content))) as [pre blocks] eqn:Es. cbn [fst snd] in *.
  assert (Hne' : pre <> [] \/ blocks <> []) by (destruct pre; [right|left; discriminate]; intros ->; apply Hne; reflexivity).
  destruct (simple_file (fun _ _ => None) cfg w file (key_begin cfg w r) _ pre blocks outs Hok Es Hne' Hb Hr) as (a & a2 & E1 & E2 & L & _).
  rewrite (file_refines cfg w g Hg (key_parse_rec cfg w g fuel) (fun _ _ => None) ltac:(discriminate) r file content a a2 Ho E1 E2).
  cbn [bind]. rewrite L. reflexivity.
Qed.

(** C19: for every file whose keywords are not INCLUDE keywords the callbacks
    are those of its keywords and cards: for a keyword without cards one
    callback, otherwise one callback per card with the text of the card and
    its index ([file_events]). *)
Theorem C19_events_partial : forall cfg w g fuel file content,
  quiet_garbage g -> callable w file -> w_file w file = Some content -> ordinary (g_N g) content -> 1 <= fuel ->
  let lines := map clean (text_lines content) in
  Forall keyword_line_ok lines -> sections lines <> ([], []) ->
  Forall (fun b => plain (fst b)) (snd (sections lines)) ->
  key_file_parse_with_callback cfg w g fuel file = OK (map Ev (file_events (blocks_of lines))).
Proof.
  intros cfg w g fuel file content Hg Hc Hf Ho Hfu lines Hok Hne Hpl.
  rewrite (parse_simple cfg w g fuel file content
    (map (fun '(n, cards) => (n, map text cards)) (snd (sections lines))) Hg Hc Hf Ho Hfu Hok Hne).
  - fold lines. unfold blocks_of, file_events. destruct (fst (sections lines)) as [|p pre]; [reflexivity|].
    cbn [app map concat block_events fst snd]. reflexivity.
  - fold lines. induction Hpl as [|[n cards] bl Hb _ IH]; cbn [map]; constructor; [|exact IH].
    split; [reflexivity|]. cbn [fst snd]. destruct cards; [left; auto|right]. split; [discriminate|].
    apply deliver_plain. exact Hb.
  - intros _. fold lines. apply (Forall_impl _ (P := fun b : cstr * list (list Z) => plain (fst b))); [|exact Hpl].
    intros [n cards] Hp Hres. cbn [fst] in *. destruct Hres as [[E|[E|E]]|[E|E]]; subst n;
      (destruct Hp as [Hp|[t Hp]]; [apply Hp; eexists; reflexivity|discriminate]).
Qed.
Print Assumptions C19_events_partial.

(** Together with C11: the keyword table of such a file is the stable sort of
    its keywords. *)
Theorem C19_table_partial : forall cfg w g fuel file content,
  quiet_garbage g -> callable w file -> w_file w file = Some content -> ordinary (g_N g) content -> 1 <= fuel ->
  let lines := map clean (text_lines content) in
  Forall keyword_line_ok lines -> sections lines <> ([], []) ->
  Forall (fun b => plain (fst b)) (snd (sections lines)) ->
  tame (blocks_of lines) ->
  exists ks, key_file_parse cfg w g fuel file = OK ks /\ stable_sorted (blocks_of lines) (map as_block ks).
Proof.
  intros cfg w g fuel file content Hg Hc Hf Ho Hfu lines Hok Hne Hpl Ht.
  unfold key_file_parse. rewrite (C19_events_partial cfg w g fuel file content) by assumption. cbn [bind]. fold lines.
  assert (E1 : forall l, events_of (map Ev l) = l).
  { induction l as [|e l IH]; [reflexivity|]. unfold events_of in *. cbn. rewrite IH. reflexivity. }
  assert (E2 : forall l, existsb is_error (map Ev l) = false).
  { induction l as [|e l IH]; [reflexivity|exact IH]. }
  rewrite E1, E2. destruct (C11_keywords_defined_partial (blocks_of lines) Ht) as (ks & -> & Hs). cbn [bind].
  exists ks. auto.
Qed.
Print Assumptions C19_table_partial.

(** C20: file names.  If the cards of the INCLUDE keywords are not resolved
    (parse_includes is off, or the keyword is INCLUDE_TRANSFORM or the like),
    the delivered cards are the names spelled by the lines: the parts
    concatenated, without the blanks around them. *)
Theorem C20_names_partial : forall cfg w g fuel file content outs,
  quiet_garbage g -> callable w file -> w_file w file = Some content -> ordinary (g_N g) content -> 1 <= fuel ->
  let lines := map clean (text_lines content) in
  Forall keyword_line_ok lines -> sections lines <> ([], []) ->
  Forall2 block_delivers (snd (sections lines)) outs ->
  (parse_includes cfg = true -> Forall (fun b => ~ resolved (fst b)) (snd (sections lines))) ->
  key_file_parse_with_callback cfg w g fuel file =
  OK (map Ev (card_events [] 0 (map text (fst (sections lines))) ++ file_events outs)).
Proof. intros. apply parse_simple; assumption. Qed.
Print Assumptions C20_names_partial.

(** C21: includes.  If by the meaning of INCLUDE keywords ([plays]) the file
    produces the callbacks and messages [out], then so does the parser. *)
Theorem C21_includes_partial : forall cfg w g file root out paths,
  quiet_garbage g -> (forall f c, w_file w f = Some c -> ordinary (g_N g) c) ->
  key_root w file = OK root ->
  plays cfg w root (w_cwd w :: extra_include_paths cfg) file out paths ->
  exists k, forall fuel, k <= fuel -> key_file_parse_with_callback cfg w g fuel file = OK out.
Proof.
  intros cfg w g file root out paths Hg Hw Hr Hp.
  destruct (plays_parse cfg w root) as (X & _). destruct (X _ _ _ _ Hp) as (_ & k & Hk); [discriminate|].
  exists k. intros fuel Hfu. specialize (Hk fuel Hfu).
  unfold key_file_parse_with_callback.
  destruct fuel as [|fuel]; [discriminate|].
  destruct (w_file w file) as [content|] eqn:Ef.
  - rewrite Hr. cbn [bind].
    assert (E : aparse cfg w (S fuel) {| rc_paths := []; rc_root := root; rc_applied := false |} file = Some (out, mkr root paths)).
    { rewrite <- Hk. cbn [aparse]. rewrite Ef. reflexivity. }
    rewrite (parse_refines cfg w g Hg Hw (S fuel) _ _ _ E). reflexivity.
  - inversion Hp; subst. congruence.
Qed.
Print Assumptions C21_includes_partial.

(** The folder INCLUDE_PATH_RELATIVE refers to is the folder of the file. *)
Theorem C21_root_folder : forall w file, callable w file ->
  exists root, key_root w file = OK root /\ absolute root /\ is_cstr root /\
    (absolute file -> elements root = removelast (elements file)) /\
    (relative file -> elements root = elements (w_cwd w) ++ removelast (elements file)).
Proof.
  intros w file (Hw & Hwa & Hf & Hel). apply key_root_spec; auto. intros ->. apply Hel. reflexivity.
Qed.
Print Assumptions C21_root_folder.

(** The meaning of a file is unique. *)
Theorem C21_meaning_unique : forall cfg w root paths file out out' p p', paths <> [] ->
  plays cfg w root paths file out p -> plays cfg w root paths file out' p' -> out = out' /\ p = p'.
Proof.
  intros cfg w root paths file out out' p p' Hne H H'. destruct (plays_parse cfg w root) as (X & _).
  destruct (X _ _ _ _ H Hne) as (_ & k & Hk). destruct (X _ _ _ _ H' Hne) as (_ & k' & Hk').
  specialize (Hk (Nat.max k k') ltac:(lia)). specialize (Hk' (Nat.max k k') ltac:(lia)).
  rewrite Hk in Hk'. unfold mkr in Hk'. injection Hk' as -> ->. auto.
Qed.
Print Assumptions C21_meaning_unique.

(** ** Concrete cases *)
Definition ex_g (N : nat) : garbage :=
  {| g_N := N; g_fill := fun _ => 35%Z; g_line := repeat 36%Z 82; g_index := 0; g_name := repeat 37%Z 81 |}.
Lemma ex_g_quiet N : 0 < N -> quiet_garbage (ex_g N).
Proof.
  intros H. split; [exact H|]. split; [reflexivity|]. split; [apply Forall_forall; intros x Hx; apply repeat_spec in Hx; subst; discriminate|].
  split; [discriminate|reflexivity].
Qed.
Definition ex_world (files : list (cstr * list Z)) (dirs : list cstr) : world :=
  {| w_file := fun f => match find (fun p => same (fst p) f) files with Some p => Some (snd p) | None => None end;
     w_dir := fun d => existsb (same d) dirs; w_cwd := bs "/home" |}.
Fixpoint text_file (l : list string) : list Z :=
  match l with [] => [] | s :: t => bs s ++ [LF] ++ text_file t end.

Definition ex_cfg (inc : bool) : key_config :=
  {| parse_includes := inc; ignore_not_found_includes := false; extra_include_paths := [bs "/lib"] |}.

Definition line_check (l : list Z) : bool :=
  match keyword_of l with Some [] => false | Some _ => length l <? 82 | None => true end.
Lemma lines_check ls : forallb line_check ls = true -> Forall keyword_line_ok ls.
Proof.
  rewrite forallb_forall, Forall_forall. intros H l Hl _ n Hn. specialize (H l Hl). unfold line_check in H.
  rewrite Hn in H. destruct n; [discriminate|]. split; [discriminate|left]. apply Nat.ltb_lt. exact H.
Qed.

Lemma plain_check bl : forallb (fun b : cstr * list (list Z) => negb (KeyParseLow.prefixb (bs "INCLUDE") (fst b))) bl = true ->
  Forall (fun b => plain (fst b)) bl.
Proof.
  rewrite forallb_forall, Forall_forall. intros H b Hb. specialize (H b Hb). left. intros X.
  rewrite (prefixb_true _ _ X) in H. discriminate.
Qed.

Definition ex19 : list Z := text_file ["$ comment"; "*KEYWORD"; "*NODE $ c"; "1 2 $ x"; "$ y"; "3"; "*PART"; "a"; "*END"; "*X"]%string.
Example C19_case :
  let w := ex_world [(bs "a.k", ex19)] [] in
  key_file_parse_with_callback (ex_cfg true) w (ex_g 7) 1 (bs "a.k") =
    OK (map Ev [(bs "KEYWORD", None, None); (bs "NODE", Some (bs "1 2 "), Some 0); (bs "NODE", Some (bs "3"), Some 1);
                (bs "PART", Some (bs "a"), Some 0)]) /\
  callable w (bs "a.k") /\ ordinary 7 ex19 /\ Forall keyword_line_ok (map clean (text_lines ex19)) /\
  Forall (fun b => plain (fst b)) (snd (sections (map clean (text_lines ex19)))).
Proof.
  split; [vm_compute; reflexivity|].
  split. { split; [repeat constructor|]. split; [exists (bs "home"); reflexivity|]. split; [repeat constructor|discriminate]. }
  split. { split; [vm_compute; repeat constructor|]. left. vm_compute. discriminate. }
  split.
  - apply lines_check. vm_compute. reflexivity.
  - apply plain_check. vm_compute. reflexivity.
Qed.

(** What is missing in C19: an empty file produces a callback (with an empty
    card), a file with comments only a callback without a card, ... *)
Theorem C19_empty_file_refuted : forall cfg, exists w g,
  quiet_garbage g /\ w_file w (bs "a.k") = Some [] /\
  key_file_parse_with_callback cfg w g 1 (bs "a.k") = OK [Ev ([], Some [], Some 0)].
Proof.
  intros cfg. exists (ex_world [(bs "a.k", [])] []), (ex_g 7). split; [apply ex_g_quiet; lia|]. split; [reflexivity|].
  destruct cfg. vm_compute. reflexivity.
Qed.
Theorem C19_comment_file_refuted : forall cfg, exists w g,
  quiet_garbage g /\ w_file w (bs "a.k") = Some (bs "$ only") /\
  key_file_parse_with_callback cfg w g 1 (bs "a.k") = OK [Ev ([], None, None)].
Proof.
  intros cfg. exists (ex_world [(bs "a.k", bs "$ only")] []), (ex_g 7). split; [apply ex_g_quiet; lia|]. split; [reflexivity|].
  destruct cfg. vm_compute. reflexivity.
Qed.
(** ... a keyword without a name and without cards produces no callback, ... *)
Theorem C19_nameless_refuted : forall cfg, exists w g,
  quiet_garbage g /\ w_file w (bs "a.k") = Some (text_file ["*"; "*NODE"; "1"]%string) /\
  key_file_parse_with_callback cfg w g 1 (bs "a.k") = OK [Ev (bs "NODE", Some (bs "1"), Some 0)].
Proof.
  intros cfg. exists (ex_world [(bs "a.k", text_file ["*"; "*NODE"; "1"]%string)] []), (ex_g 7). split; [apply ex_g_quiet; lia|]. split; [reflexivity|].
  destruct cfg. vm_compute. reflexivity.
Qed.
(** ... and a line of 82 characters with a keyword behind a blank is
    copied beyond the buffer. *)
Theorem C19_long_line_refuted : forall cfg, exists w g,
  quiet_garbage g /\ w_file w (bs "a.k") = Some (bs " *NODE " ++ repeat 120%Z 75) /\
  key_file_parse_with_callback cfg w g 1 (bs "a.k") = UB.
Proof.
  intros cfg. exists (ex_world [(bs "a.k", bs " *NODE " ++ repeat 120%Z 75)] []), (ex_g 7). split; [apply ex_g_quiet; lia|]. split; [reflexivity|].
  destruct cfg. vm_compute. reflexivity.
Qed.

(** C20, a case and what is missing *)
Definition ex20 : list Z := text_file ["*INCLUDE"; "  /some/very +"; "long/pa +"; "th.k  "; "b.k"; "*INCLUDE_TRANSFORM"; "x +"; "y"; "1 +"]%string.
Example C20_case :
  let w := ex_world [(bs "a.k", ex20)] [] in
  key_file_parse_with_callback (ex_cfg false) w (ex_g 7) 1 (bs "a.k") =
    OK (map Ev [(bs "INCLUDE", Some (bs "/some/verylong/path.k"), Some 0); (bs "INCLUDE", Some (bs "b.k"), Some 1);
                (bs "INCLUDE_TRANSFORM", Some (bs "xy"), Some 0); (bs "INCLUDE_TRANSFORM", Some (bs "1 +"), Some 1)]).
Proof. vm_compute. reflexivity. Qed.


(** A sufficient condition for [spellable]. *)
Lemma parts_unique (f := fun p : list Z => p ++ [SPACE; PLUS]) : forall ps qs x y,
  map f ps ++ [x] = map f qs ++ [y] -> ps = qs /\ x = y.
Proof.
  intros ps qs x y E. apply app_inj_tail in E as [E ->]. split; [|reflexivity].
  revert qs E. induction ps as [|p ps IH]; intros [|q qs] E; try discriminate; [reflexivity|].
  cbn [map] in E. apply (f_equal (fun l => (hd [] l, tl l))) in E. cbn [hd tl] in E.
  assert (E1 : f p = f q) by congruence. assert (E2 : map f ps = map f qs) by congruence.
  apply app_inv_tail in E1. rewrite E1, (IH qs E2). reflexivity.
Qed.

Lemma spellable_parts parts final :
  Forall (fun l => ~ In DOLLAR l) (parts ++ [final]) ->
  match parts with [] => True | p :: _ => ~ blanks p end ->
  length (drop_blanks (concat parts ++ final)) <> 1 ->
  spellable (map (fun p => p ++ [SPACE; PLUS]) parts ++ [final]).
Proof.
  intros Hd Hf Hl. split; [|split].
  - apply Forall_app in Hd as [H1 H2]. apply Forall_app. split; [|exact H2]. apply Forall_map.
    apply (Forall_impl _ (P := fun l => ~ In DOLLAR l)); [|exact H1]. intros l H I. apply in_app_or in I as [I|I]; [contradiction|].
    destruct I as [I|[I|[]]]; discriminate.
  - intros p t l E. destruct parts as [|q parts]; [discriminate|]. cbn [map app] in E.
    apply (f_equal (hd [])) in E. cbn [hd] in E. apply app_inv_tail in E. subst q. exact Hf.
  - intros ps fin E b c Hb Hc X. apply parts_unique in E as [<- <-]. apply Hl. rewrite X.
    rewrite blanks_drop by assumption. cbn [drop_blanks]. destruct (Z.eqb_spec c SPACE); [contradiction|reflexivity].
Qed.

Lemma no_dollar_check ls : forallb (fun l => negb (has_dollar l)) ls = true -> Forall (fun l => ~ In DOLLAR l) ls.
Proof.
  rewrite forallb_forall, Forall_forall. intros H l Hl. specialize (H l Hl). apply has_dollar_false.
  destruct (has_dollar l); [discriminate|reflexivity].
Qed.

Lemma ex_spells1 : spells [bs "  /some/very +"; bs "long/pa +"; bs "th.k  "] (bs "/some/verylong/path.k") /\
  spellable [bs "  /some/very +"; bs "long/pa +"; bs "th.k  "].
Proof.
  split.
  - exists [bs "  /some/very"; bs "long/pa"], (bs "th.k  "). split; [reflexivity|]. split.
    + intros C. apply KeyParseLow.ends_plus_spec in C. discriminate.
    + exists (bs "  "), (bs "  "). split; [reflexivity|]. split; [repeat constructor|]. split; [repeat constructor|].
      intros _. split; discriminate.
  - apply (spellable_parts [bs "  /some/very"; bs "long/pa"] (bs "th.k  ")).
    + apply no_dollar_check. vm_compute. reflexivity.
    + intros B. do 2 (inversion B as [|? ? _ B']; clear B; subst; rename B' into B). inversion B; discriminate.
    + vm_compute. discriminate.
Qed.
Lemma ex_spells2 n : length n <> 1 -> hd SPACE n <> SPACE -> last n SPACE <> SPACE -> has_dollar n = false ->
  KeyParseLow.ends_plus n = false -> n <> [] -> spells [n] n /\ spellable [n].
Proof.
  intros H1 H2 H3 H4 H5 Hne. split.
  - exists [], n. split; [reflexivity|]. split.
    + intros C. apply KeyParseLow.ends_plus_spec in C. cbn [concat app] in C. congruence.
    + exists [], []. cbn [concat app]. rewrite app_nil_r. split; [reflexivity|]. split; [constructor|]. split; [constructor|]. auto.
  - apply (spellable_parts [] n).
    + constructor; [|constructor]. apply has_dollar_false. assumption.
    + exact I.
    + cbn [concat app]. destruct n as [|c n]; [contradiction|]. cbn [drop_blanks]. cbn [hd] in H2.
      destruct (Z.eqb_spec c SPACE); [contradiction|assumption].
Qed.

(** the hypotheses of C20 are met by the first keyword of the example *)
Example C20_nonvacuous : block_delivers
  (bs "INCLUDE", [bs "  /some/very +"; bs "long/pa +"; bs "th.k  "; bs "b.k"]) (bs "INCLUDE", [bs "/some/verylong/path.k"; bs "b.k"]).
Proof.
  split; [reflexivity|right]. split; [discriminate|]. apply deliver_names; [left; reflexivity|].
  exists [[bs "  /some/very +"; bs "long/pa +"; bs "th.k  "]; [bs "b.k"]]. split; [reflexivity|].
  destruct ex_spells1 as [A B].
  destruct (ex_spells2 (bs "b.k") ltac:(discriminate) ltac:(discriminate) ltac:(discriminate) eq_refl eq_refl ltac:(discriminate)) as [C D].
  split; constructor; [assumption|constructor; [assumption|constructor]|assumption|constructor; [assumption|constructor]].
Qed.

(** What is missing in C20: a name of one character is undefined behaviour
    (a read in front of the buffer), ... *)
Theorem C20_one_character_refuted : exists w g,
  quiet_garbage g /\ w_file w (bs "a.k") = Some (text_file ["*INCLUDE"; "b"]%string) /\
  forall cfg, key_file_parse_with_callback cfg w g 1 (bs "a.k") = UB.
Proof.
  exists (ex_world [(bs "a.k", text_file ["*INCLUDE"; "b"]%string)] []), (ex_g 7). split; [apply ex_g_quiet; lia|]. split; [reflexivity|].
  intros [[] ig ex]; vm_compute; reflexivity.
Qed.
(** ... a name whose continuation is missing becomes the card of the next
    keyword, ... *)
Theorem C20_stale_name_refuted : exists w g,
  quiet_garbage g /\ w_file w (bs "a.k") = Some (text_file ["*INCLUDE"; "abc +"; "*NODE"; "1"]%string) /\
  forall cfg, parse_includes cfg = false ->
    key_file_parse_with_callback cfg w g 1 (bs "a.k") =
    OK [Ev (bs "INCLUDE", None, None); Ev (bs "NODE", Some (bs "abc +"), Some 0)].
Proof.
  exists (ex_world [(bs "a.k", text_file ["*INCLUDE"; "abc +"; "*NODE"; "1"]%string)] []), (ex_g 7). split; [apply ex_g_quiet; lia|]. split; [reflexivity|].
  intros [pi ig ex] H. cbn in H. subst. vm_compute; reflexivity.
Qed.
(** ... and a comment behind a name hides the continuation mark and keeps the
    blanks. *)
Theorem C20_comment_refuted : exists w g,
  quiet_garbage g /\ w_file w (bs "a.k") = Some (text_file ["*INCLUDE"; "abc + $ c"; "def"]%string) /\
  forall cfg, parse_includes cfg = false ->
    key_file_parse_with_callback cfg w g 1 (bs "a.k") =
    OK [Ev (bs "INCLUDE", Some (bs "abc + "), Some 0); Ev (bs "INCLUDE", Some (bs "def"), Some 1)].
Proof.
  exists (ex_world [(bs "a.k", text_file ["*INCLUDE"; "abc + $ c"; "def"]%string)] []), (ex_g 7). split; [apply ex_g_quiet; lia|]. split; [reflexivity|].
  intros [pi ig ex] H. cbn in H. subst. vm_compute; reflexivity.
Qed.

(** C21, a case and what is missing *)
Definition ex21 : world := ex_world
  [(bs "/m/a.k", text_file ["*NODE"; "1"; "*INCLUDE_PATH_RELATIVE"; "sub"; "nodir"; "*INCLUDE"; "b.k"; "c.k"; "*PART"]%string);
   (bs "/m/sub/b.k", text_file ["*X"; "2"; "*INCLUDE"; "d.k"]%string);
   (bs "/lib/d.k", text_file ["*D"; "3"; ""]%string);
   (bs "/m//sub/d.k", text_file ["*WRONG"]%string)] [bs "/m/sub"].
Example C21_case :
  key_file_parse_with_callback (ex_cfg true) ex21 (ex_g 7) 5 (bs "/m/a.k") =
    OK [Ev (bs "NODE", Some (bs "1"), Some 0); PathNotFound (bs "/m/nodir");
        Ev (bs "X", Some (bs "2"), Some 0); Ev (bs "D", Some (bs "3"), Some 0); Ev (bs "D", Some [], Some 1);
        NotFound (bs "c.k"); Ev (bs "PART", None, None)].
Proof. vm_compute. reflexivity. Qed.

(** The hypotheses of C21 are met: a file with an include path, an include
    that exists there, one that does not exist and a nested one. *)
Definition ex21a : world := ex_world
  [(bs "/m/a.k", text_file ["*INCLUDE_PATH_RELATIVE"; "sub"; "*INCLUDE"; "b.k"; "c.k"; "*PART"]%string);
   (bs "/m/sub/b.k", text_file ["*X"; "2"]%string)] [bs "/m/sub"].
Lemma ex_name s : (length (bs s) =? 1) || (hd SPACE (bs s) =? SPACE)%Z || (last (bs s) SPACE =? SPACE)%Z ||
  has_dollar (bs s) || KeyParseLow.ends_plus (bs s) = false -> spells [bs s] (bs s) /\ spellable [bs s].
Proof.
  intros H. repeat (apply orb_false_elim in H as [H ?]). apply ex_spells2; auto.
  - apply Nat.eqb_neq. assumption.
  - apply Z.eqb_neq. assumption.
  - apply Z.eqb_neq. assumption.
  - intros E. rewrite E in *. discriminate.
Qed.
Lemma ex_under dir name : is_cstr dir -> is_cstr name -> last dir SEP <> SEP -> hd SEP name <> SEP ->
  under dir name (dir ++ SEP :: name).
Proof.
  intros Hd Hn Hl Hh. split; [assumption|]. split; [assumption|]. exists dir, [], name, [].
  rewrite app_nil_r. repeat (split; [reflexivity|]). split.
  - destruct dir as [|x dir]; [contradiction|]. destruct (exists_last (l := x :: dir)) as (q & z & E); [discriminate|].
    exists q, z. split; [assumption|]. rewrite E, last_last in Hl. assumption.
  - split; [|reflexivity]. destruct name; [contradiction|assumption].
Qed.
Ltac ex_cstr := repeat constructor.
Lemma ex21_plays : plays (ex_cfg true) ex21a (bs "/m/") [bs "/home"; bs "/lib"] (bs "/m/a.k")
  [Ev (bs "X", Some (bs "2"), Some 0); NotFound (bs "c.k"); Ev (bs "PART", None, None)]
  [bs "/home"; bs "/lib"; bs "/m/sub"].
Proof.
  destruct (ex_name "sub" eq_refl) as [S1 S2]. destruct (ex_name "b.k" eq_refl) as [B1 B2]. destruct (ex_name "c.k" eq_refl) as [C1 C2].
  eapply (play_file _ _ _ _ _ _ [] [(bs "INCLUDE_PATH_RELATIVE", [bs "sub"]); (bs "INCLUDE", [bs "b.k"; bs "c.k"]); (bs "PART", [])]).
  { reflexivity. }
  { apply lines_check. vm_compute. reflexivity. }
  { vm_compute. reflexivity. }
  { right. discriminate. }
  change (plays_blocks (ex_cfg true) ex21a (bs "/m/") [bs "/home"; bs "/lib"] (bs "/m/a.k")
    [(bs "INCLUDE_PATH_RELATIVE", [bs "sub"]); (bs "INCLUDE", [bs "b.k"; bs "c.k"]); (bs "PART", [])]
    ([] ++ [Ev (bs "X", Some (bs "2"), Some 0); NotFound (bs "c.k")] ++ [Ev (bs "PART", None, None)] ++ []) [bs "/home"; bs "/lib"; bs "/m/sub"]).
  apply (play_block _ _ _ _ _ _ _ _ [] [bs "/home"; bs "/lib"; bs "/m/sub"]).
  { refine (play_relative (ex_cfg true) ex21a (bs "/m/") [bs "/home"; bs "/lib"] (bs "/m/a.k") [bs "sub"] [bs "sub"] [bs "/m/sub"] _ _ _ _ _).
    - discriminate.
    - reflexivity.
    - exists [[bs "sub"]]. split; [reflexivity|]. split; constructor; auto.
    - constructor; [|constructor]. split; [ex_cstr|]. split; [ex_cstr|]. exists (bs "/m"), [SEP], (bs "sub"), [].
      repeat (split; [reflexivity|]). split; [exists [SEP], 109%Z; split; [reflexivity|discriminate]|]. split; [discriminate|reflexivity].
    - constructor; [|constructor]. apply Nat.leb_le. vm_compute. reflexivity. }
  assert (U : forall d s, is_cstr (bs d) -> is_cstr (bs s) -> last (bs d) SEP <> SEP -> hd SEP (bs s) <> SEP ->
    w_file ex21a (bs d ++ SEP :: bs s) = None -> exists c, under (bs d) (bs s) c /\ w_file ex21a c = None).
  { intros d s X1 X2 X3 X4 X5. exists (bs d ++ SEP :: bs s). split; [apply ex_under; assumption|assumption]. }
  eapply play_block.
  { apply (play_include _ _ _ _ _ [bs "b.k"; bs "c.k"] [bs "b.k"; bs "c.k"]); [discriminate|reflexivity| |].
    - exists [[bs "b.k"]; [bs "c.k"]]. split; [reflexivity|]. split; repeat (constructor; [assumption|]); constructor.
    - change [Ev (bs "X", Some (bs "2"), Some 0); NotFound (bs "c.k")] with ([Ev (bs "X", Some (bs "2"), Some 0)] ++ [NotFound (bs "c.k")]).
      eapply (play_found _ _ _ _ _ _ _ (bs "/m/sub/b.k")).
      + exists [bs "/home"; bs "/lib"], (bs "/m/sub"), []. split; [reflexivity|]. split; [|split; [discriminate|]].
        * apply (ex_under (bs "/m/sub") (bs "b.k")); [ex_cstr|ex_cstr|discriminate|discriminate].
        * constructor; [|constructor; [|constructor]]; apply U; try ex_cstr; try discriminate; reflexivity.
      + eapply (play_file _ _ _ _ _ _ [] [(bs "X", [bs "2"])] [Ev (bs "X", Some (bs "2"), Some 0)]).
        * reflexivity.
        * apply lines_check. vm_compute. reflexivity.
        * vm_compute. reflexivity.
        * right. discriminate.
        * change [Ev (bs "X", Some (bs "2"), Some 0)] with ([Ev (bs "X", Some (bs "2"), Some 0)] ++ []).
          eapply play_block; [|apply play_none].
          apply (play_cards _ _ _ _ _ _ [bs "2"] [bs "2"]); [discriminate| |].
          -- intros _ [[E|[E|E]]|[E|E]]; discriminate.
          -- apply (deliver_plain (bs "X") [bs "2"]). left. intros [t E]. discriminate.
      + refine (play_missing (ex_cfg true) ex21a (bs "/m/") [bs "/home"; bs "/lib"; bs "/m/sub"] (bs "/m/a.k") (bs "c.k") [] [] _ _ _ _).
        * constructor; [|constructor; [|constructor; [|constructor]]]; apply U; try ex_cstr; try discriminate; reflexivity.
        * apply Nat.leb_le. vm_compute. reflexivity.
        * apply play_no_name. }
  eapply play_block; [apply play_empty|apply play_none].
Qed.
Example C21_nonvacuous : key_root ex21a (bs "/m/a.k") = OK (bs "/m/") /\
  key_file_parse_with_callback (ex_cfg true) ex21a (ex_g 7) 3 (bs "/m/a.k") =
  OK [Ev (bs "X", Some (bs "2"), Some 0); NotFound (bs "c.k"); Ev (bs "PART", None, None)].
Proof. split; vm_compute; reflexivity. Qed.

(** What is missing in C21: a file that includes itself is included forever
    (no amount of recursion depth suffices; the C program overflows its
    stack), ... *)
Theorem C21_self_include_refuted : exists w g, quiet_garbage g /\
  w_file w (bs "/home/a.k") = Some (text_file ["*INCLUDE"; "a.k"]%string) /\
  forall fuel, key_file_parse_with_callback (ex_cfg true) w g fuel (bs "/home/a.k") = OOF.
Proof.
  set (w := ex_world [(bs "/home/a.k", text_file ["*INCLUDE"; "a.k"]%string)] []).
  exists w, (ex_g 7). split; [apply ex_g_quiet; lia|]. split; [reflexivity|].
  assert (X : forall fuel r, key_begin (ex_cfg true) w r = mkr (bs "/home/") [bs "/home"; bs "/lib"] ->
    key_parse_rec (ex_cfg true) w (ex_g 7) fuel r (bs "/home/a.k") = OOF).
  { induction fuel as [|fuel IH]; intros r Hr; [reflexivity|]. cbn [key_parse_rec].
    change (w_file w (bs "/home/a.k")) with (Some (text_file ["*INCLUDE"; "a.k"]%string)). cbv iota. rewrite Hr.
    specialize (IH (mkr (bs "/home/") [bs "/home"; bs "/lib"]) eq_refl).
    generalize dependent (key_parse_rec (ex_cfg true) w (ex_g 7) fuel). intros include IH.
    vm_compute in IH. vm_compute. rewrite IH. reflexivity. }
  intros fuel. unfold key_file_parse_with_callback.
  change (w_file w (bs "/home/a.k")) with (Some (text_file ["*INCLUDE"; "a.k"]%string)). cbv iota.
  assert (Hr : key_root w (bs "/home/a.k") = OK (bs "/home/")) by (vm_compute; reflexivity).
  rewrite Hr. cbn [bind]. rewrite X by reflexivity. reflexivity.
Qed.
Print Assumptions C21_self_include_refuted.

(** ... and a file given by an absolute path is not found unless it lies
    under an include path. *)
Theorem C21_absolute_name_refuted : exists w g, quiet_garbage g /\
  w_file w (bs "/m/b.k") = Some (text_file ["*X"]%string) /\
  w_file w (bs "a.k") = Some (text_file ["*INCLUDE"; "/m/b.k"]%string) /\
  key_file_parse_with_callback (ex_cfg true) w g 5 (bs "a.k") = OK [NotFound (bs "/m/b.k")].
Proof.
  exists (ex_world [(bs "a.k", text_file ["*INCLUDE"; "/m/b.k"]%string); (bs "/m/b.k", text_file ["*X"]%string)] []), (ex_g 7).
  split; [apply ex_g_quiet; lia|]. split; [reflexivity|]. split; [reflexivity|]. vm_compute. reflexivity.
Qed.

(** ... and messages longer than 1023 bytes are written beyond the buffer of
    the message (see C51). *)
Theorem C21_long_message_refuted : exists w g name, quiet_garbage g /\ 2 <= length name /\
  w_file w (bs "a.k") = Some (bs "*INCLUDE" ++ [LF] ++ name) /\
  key_file_parse_with_callback (ex_cfg true) w g 5 (bs "a.k") = UB.
Proof.
  exists (ex_world [(bs "a.k", bs "*INCLUDE" ++ [LF] ++ repeat 120%Z 1000)] []), (ex_g 7), (repeat 120%Z 1000).
  split; [apply ex_g_quiet; lia|]. split; [apply Nat.leb_le; reflexivity|]. split; [reflexivity|]. vm_compute. reflexivity.
Qed.

(** C21: a file that cannot be opened, or an include that is not found (and not
    ignored), is an error; key_file_parse delivers no keywords then.  Without an
    error it delivers the table of all callbacks. *)
Theorem C21_missing_file : forall cfg w g fuel file, w_file w file = None ->
  key_file_parse_with_callback cfg w g fuel file = OK [OpenFailed] /\ key_file_parse cfg w g fuel file = OK [].
Proof.
  intros cfg w g fuel file N. assert (E : key_file_parse_with_callback cfg w g fuel file = OK [OpenFailed]) by (unfold key_file_parse_with_callback; rewrite N; reflexivity).
  split; [exact E|]. unfold key_file_parse. rewrite E. reflexivity.
Qed.
Theorem C21_error_no_keywords : forall cfg w g fuel file out ks, key_file_parse_with_callback cfg w g fuel file = OK out -> key_file_parse_events (events_of out) = OK ks ->
  ((exists name, In (NotFound name) out) \/ In OpenFailed out -> key_file_parse cfg w g fuel file = OK []) /\
  ((forall name, ~ In (NotFound name) out) -> ~ In OpenFailed out -> key_file_parse cfg w g fuel file = OK ks).
Proof.
  intros cfg w g fuel file out ks E K. unfold key_file_parse. rewrite E. cbn [bind]. rewrite K. cbn [bind]. destruct (existsb is_error out) eqn:X.
  - apply existsb_exists in X as (i & I & Ei). split; [reflexivity|]. intros A B. exfalso. destruct i; try discriminate Ei; [exact (A _ I)|exact (B I)].
  - assert (N : forall i, In i out -> is_error i = false). { intros i I. destruct (is_error i) eqn:Ei; [|reflexivity]. rewrite (proj2 (existsb_exists is_error out)) in X; [discriminate|eauto]. }
    split; [|reflexivity]. intros [(name & I)|I]; discriminate (N _ I).
Qed.
(** The exact limit: a message about line [n] of [file] that names [name] is
    written iff it has fewer than 1024 characters, counting the [k] digits of
    the decimal number [n]. *)
Theorem C21_message_limit st file name fixed m k : (k = 1 \/ 10 ^ (k - 1) <= p_count st) -> 1 <= k <= 20 -> p_count st < 10 ^ k ->
  (length file + k + length name + fixed < 1024 -> push_f st file name fixed m = OK (emit st [m])) /\
  (1024 <= length file + k + length name + fixed -> push_f st file name fixed m = UB).
Proof.
  intros Hk K H.
  assert (G : forall f k n, (k = 1 \/ 10 ^ (k - 1) <= n) -> 1 <= k <= f -> n < 10 ^ k -> zu_len f n = k).
  { clear. induction f as [|f IH]; intros k n Hk K H; [lia|]. cbn [zu_len]. destruct (Nat.ltb_spec n 10) as [L|L].
    - destruct Hk as [Hk|Hk]; [lia|]. destruct k as [|[|k]]; [lia|reflexivity|]. exfalso.
      replace (S (S k) - 1) with (S k) in Hk by lia. cbn [Nat.pow] in Hk. pose proof (Nat.pow_nonzero 10 k). lia.
    - destruct k as [|[|k]]; [lia|cbn in H; lia|].
      rewrite (IH (S k) (n / 10)); [lia| | |].
      + destruct Hk as [Hk|Hk]; [lia|]. replace (S (S k) - 1) with (S k) in Hk by lia. destruct k as [|k]; [left; reflexivity|right].
        replace (S (S k) - 1) with (S k) by lia. apply Nat.div_le_lower_bound; [lia|]. replace (10 * 10 ^ S k) with (10 ^ S (S k)) by reflexivity. exact Hk.
      + lia.
      + apply Nat.div_lt_upper_bound; [lia|]. replace (10 * 10 ^ S k) with (10 ^ S (S k)) by reflexivity. exact H. }
  unfold push_f, message_fits. rewrite (G 20 k (p_count st) Hk K H).
  destruct (Nat.ltb_spec (length file + k + length name + fixed) 1024); split; intros; try lia; reflexivity.
Qed.
Example C21_message_limit_case st : p_count st = 10 ->
  push_f st (bs "a.k") (repeat 120%Z 990) 28 (NotFound []) = OK (emit st [NotFound []]) /\ push_f st (bs "a.k") (repeat 120%Z 991) 28 (NotFound []) = UB.
Proof. intros H. unfold push_f, message_fits. rewrite H. split; reflexivity. Qed.
Print Assumptions C21_message_limit.
Print Assumptions C21_missing_file.
Print Assumptions C21_error_no_keywords.
