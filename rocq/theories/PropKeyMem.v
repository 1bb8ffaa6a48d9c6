(** * C97: the memory of a keyword table *)
From Verif Require Import CBase CBaseFacts KeyTableModel KeyParseModel KeyMemModel KeyMemSpec KeyMemProofs.

Lemma keeps_frame h h' tab Ds : tgood h tab Ds -> (forall b, In b (towns tab Ds) -> nth_error h' b = nth_error h b) -> tgood h' tab Ds.
Proof.
  intros (Ht & Hg & ND) F. split; [|split; [|exact ND]].
  - destruct tab as [t|]; [|exact Ht]. rewrite F by (left; reflexivity). exact Ht.
  - rewrite Forall_forall in *. intros D HD. apply (dgood_frame h); [apply Hg, HD|]. intros b Hb. apply F. destruct tab as [t|]; [|subst Ds; destruct HD].
    right. apply in_flat_map. exists D. auto.
Qed.
Lemma parse_run h l ks : key_file_parse_events (events_of l) = OK ks ->
  exists d Ds, m_run {| md_heap := h; md_table := None; md_num := 0; md_current := None |} (events_of l) = OK d /\ ks = map dkw Ds /\ md_num d = length Ds /\
    tgood (md_heap d) (md_table d) Ds /\ keeps h (md_heap d) /\ (forall b, In b (towns (md_table d) Ds) <-> length h <= b /\ allocated (md_heap d) b).
Proof. intros E. pose proof (run_ok h (events_of l) _ _ _ (start_ok h)) as R. unfold key_file_parse_events in E. rewrite E in R. exact R. Qed.

(** key_file_free of a table: every block of the table is freed, and freed
    once; nothing else changes. *)
Theorem C97_free : forall h tab n ks, shows h tab n ks -> NoDup (table_blocks h tab) ->
  exists h', key_file_free h tab n = OK h' /\ freed h (table_blocks h tab) h'.
Proof.
  intros h tab n ks Sh ND. destruct (shows_tgood h tab n ks Sh ND) as (Ds & _ & -> & G). rewrite (towns_blocks h tab Ds G). exact (free_ok h tab Ds G).
Qed.

(** What key_file_parse returns is in memory of its own: the pointers lead to
    the keywords, no two of them to the same block, and what was allocated
    while parsing is the table and nothing else; what was there before is
    unchanged.  After a parse error there is no table. *)
Theorem C97_parse : forall cfg w g fuel file l ks h,
  key_file_parse_with_callback cfg w g fuel file = OK l -> key_file_parse cfg w g fuel file = OK ks ->
  exists h' tab, m_key_file_parse h l = OK (h', tab, length ks) /\ keeps h h' /\ shows h' tab (length ks) ks /\ NoDup (table_blocks h' tab) /\
    (forall b, In b (table_blocks h' tab) <-> length h <= b /\ allocated h' b) /\ (existsb is_error l = true -> tab = None).
Proof.
  intros cfg w g fuel file l ks h El Ek. unfold key_file_parse in Ek. rewrite El in Ek. cbn [bind] in Ek.
  destruct (key_file_parse_events (events_of l)) as [ks'| |] eqn:Ee; [|discriminate Ek|discriminate Ek]. cbn [bind] in Ek.
  destruct (parse_run h l ks' Ee) as (d & Ds & Er & -> & En & G & K & Own). unfold m_key_file_parse. rewrite Er. cbn [bind].
  destruct (existsb is_error l); injection Ek as <-.
  - rewrite En. destruct (free_ok _ _ _ G) as (h' & -> & (L & F & Kf)). cbn [bind length]. exists h', None. split; [reflexivity|].
    assert (Fr : forall b, length h <= b -> ~ allocated h' b).
    { intros b Lb (x & Ex). destruct (in_dec Nat.eq_dec b (towns (md_table d) Ds)) as [I|I]; [rewrite (F b I) in Ex; discriminate Ex|].
      apply I, Own. split; [exact Lb|]. exists x. rewrite <- (Kf b I). exact Ex. }
    split; [|split; [split; reflexivity|split; [constructor|split; [|reflexivity]]]].
    + destruct K as (Lk & K). split; [lia|]. intros b Lb. rewrite Kf; [apply K, Lb|]. intros I. apply Own in I. lia.
    + intros b. split; [intros []|]. intros (Lb & Ab). destruct (Fr b Lb Ab).
  - exists (md_heap d), (md_table d). rewrite map_length, En. split; [reflexivity|]. split; [exact K|]. split; [apply tgood_shows, G|].
    rewrite (towns_blocks _ _ _ G). split; [apply G|]. split; [exact Own|discriminate].
Qed.

(** Parsing and freeing: what was allocated is freed again. *)
Theorem C97_no_leak : forall cfg w g fuel file l ks h h' tab n,
  key_file_parse_with_callback cfg w g fuel file = OK l -> key_file_parse cfg w g fuel file = OK ks ->
  m_key_file_parse h l = OK (h', tab, n) ->
  exists h'', key_file_free h' tab n = OK h'' /\ keeps h h'' /\ forall b, allocated h'' b <-> b < length h /\ allocated h b.
Proof.
  intros cfg w g fuel file l ks h h' tab n El Ek Em. destruct (C97_parse cfg w g fuel file l ks h El Ek) as (h1 & t1 & E1 & (Lk & K) & Sh & ND & Own & _).
  rewrite E1 in Em. injection Em as <- <- <-. destruct (C97_free h1 t1 _ _ Sh ND) as (h'' & E'' & (L & F & Kf)). exists h''. split; [exact E''|].
  assert (Old : forall b, b < length h -> nth_error h'' b = nth_error h b) by (intros b Lb; rewrite Kf; [apply K, Lb|intros I; apply Own in I; lia]).
  split; [split; [lia|exact Old]|]. intros b. split.
  - intros (x & Ex). destruct (in_dec Nat.eq_dec b (table_blocks h1 t1)) as [I|I]; [rewrite (F b I) in Ex; discriminate Ex|].
    destruct (Nat.lt_ge_cases b (length h)) as [Lb|Lb]; [split; [exact Lb|exists x; rewrite <- Old by exact Lb; exact Ex]|].
    exfalso. apply I, Own. split; [exact Lb|]. exists x. rewrite <- Kf by exact I. exact Ex.
  - intros (Lb & x & Ex). exists x. rewrite Old by exact Lb. exact Ex.
Qed.

(** The parse has undefined behaviour in memory exactly when the table's
    contents are undefined (C11: the third keyword of one name at the end). *)
Theorem C97_undefined : forall l h, m_key_file_parse h l = UB <-> key_file_parse_events (events_of l) = UB.
Proof.
  intros l h. unfold m_key_file_parse. pose proof (run_ok h (events_of l) _ _ _ (start_ok h)) as R. unfold key_file_parse_events.
  destruct (key_run _ (events_of l)) as [ks| |]; [|rewrite R; cbn [bind]; tauto|rewrite R; cbn [bind]; split; discriminate].
  destruct R as (d & Ds & -> & _ & En & G & _). cbn [bind]. split; [|discriminate]. destruct (existsb is_error l); [|discriminate].
  rewrite En. destruct (free_ok _ _ _ G) as (h' & -> & _). discriminate.
Qed.

(** A second parse leaves the table of the first as it is, and either table
    can be freed without a change to the other. *)
Theorem C97_independent : forall cfg1 w1 g1 fuel1 file1 l1 ks1 cfg2 w2 g2 fuel2 file2 l2 ks2 h h1 t1 n1 h2 t2 n2,
  key_file_parse_with_callback cfg1 w1 g1 fuel1 file1 = OK l1 -> key_file_parse cfg1 w1 g1 fuel1 file1 = OK ks1 -> m_key_file_parse h l1 = OK (h1, t1, n1) ->
  key_file_parse_with_callback cfg2 w2 g2 fuel2 file2 = OK l2 -> key_file_parse cfg2 w2 g2 fuel2 file2 = OK ks2 -> m_key_file_parse h1 l2 = OK (h2, t2, n2) ->
  shows h2 t1 n1 ks1 /\ shows h2 t2 n2 ks2 /\
  (exists h3, key_file_free h2 t1 n1 = OK h3 /\ shows h3 t2 n2 ks2) /\
  (exists h3, key_file_free h2 t2 n2 = OK h3 /\ shows h3 t1 n1 ks1).
Proof.
  intros cfg1 w1 g1 fuel1 file1 l1 ks1 cfg2 w2 g2 fuel2 file2 l2 ks2 h h1 t1 n1 h2 t2 n2 El1 Ek1 Em1 El2 Ek2 Em2.
  destruct (C97_parse cfg1 w1 g1 fuel1 file1 l1 ks1 h El1 Ek1) as (h1' & t1' & E1 & _ & Sh1 & ND1 & Own1 & _). rewrite Em1 in E1. injection E1 as <- <- ->.
  destruct (C97_parse cfg2 w2 g2 fuel2 file2 l2 ks2 h1 El2 Ek2) as (h2' & t2' & E2 & (Lk & K) & Sh2 & ND2 & Own2 & _). rewrite Em2 in E2. injection E2 as <- <- ->.
  destruct (shows_tgood _ _ _ _ Sh1 ND1) as (D1 & -> & EL1 & G1). destruct (shows_tgood _ _ _ _ Sh2 ND2) as (D2 & -> & EL2 & G2).
  rewrite (towns_blocks _ _ _ G1) in *. rewrite (towns_blocks _ _ _ G2) in *.
  assert (B1 : forall b, In b (towns t1 D1) -> b < length h1) by (intros b I; apply Own1 in I; destruct I as (_ & x & Ex); apply nth_error_Some_lt in Ex; exact Ex).
  assert (B2 : forall b, In b (towns t2 D2) -> length h1 <= b) by (intros b I; apply Own2 in I; apply I).
  assert (G1' : tgood h2 t1 D1) by (apply (keeps_frame h1); [exact G1|intros b I; apply K, B1, I]).
  rewrite EL1, EL2. split; [apply tgood_shows, G1'|]. split; [apply tgood_shows, G2|]. split.
  - destruct (free_ok h2 t1 D1 G1') as (h3 & -> & (_ & _ & Kf)). exists h3. split; [reflexivity|]. apply tgood_shows, (keeps_frame h2); [exact G2|].
    intros b I. apply Kf. intros I1. apply B1 in I1. apply B2 in I. lia.
  - destruct (free_ok h2 t2 D2 G2) as (h3 & -> & (_ & _ & Kf)). exists h3. split; [reflexivity|]. apply tgood_shows, (keeps_frame h2); [exact G1'|].
    intros b I. apply Kf. intros I1. apply B2 in I1. apply B1 in I. lia.
Qed.

(** Two keywords with the name PART and one with NODE; memory with one block
    of another owner. *)
Definition case_items : list item :=
  [Ev (bs "PART", Some (bs "a"), Some 0); Ev (bs "PART", Some (bs "b"), Some 1); Ev (bs "NODE", None, None); Ev (bs "PART", Some (bs "c"), Some 0)].
Example C97_case : exists h' t, m_key_file_parse [Some (BStr (bs "x"))] case_items = OK (h', Some t, 3) /\
  shows h' (Some t) 3 [{| kw_name := bs "NODE"; kw_cards := [] |}; {| kw_name := bs "PART"; kw_cards := [bs "a"; bs "b"] |}; {| kw_name := bs "PART"; kw_cards := [bs "c"] |}] /\
  length (table_blocks h' (Some t)) = 9 /\ length h' > 10.
Proof.
  eexists _, _. split; [vm_compute; reflexivity|]. split; [|split; vm_compute; [reflexivity|lia]].
  split; [reflexivity|]. eexists [_; _; _]. split; [vm_compute; reflexivity|]. repeat constructor; cbn [m_cards]; try reflexivity.
  - eexists [_; _]. split; [vm_compute; reflexivity|]. repeat constructor.
  - eexists [_]. split; [vm_compute; reflexivity|]. repeat constructor.
Qed.
(** The same with an error: everything is freed. *)
Example C97_error_case : exists h', m_key_file_parse [Some (BStr (bs "x"))] (case_items ++ [OpenFailed]) = OK (h', None, 0) /\
  nth_error h' 0 = Some (Some (BStr (bs "x"))) /\ Forall (fun c => c = None) (skipn 1 h') /\ length h' > 10.
Proof. eexists. split; [vm_compute; reflexivity|]. split; [reflexivity|]. split; [cbn [skipn]; repeat constructor|vm_compute; lia]. Qed.
(** A block that is not freed is a leak the specification sees. *)
Example C97_freed_case : ~ freed [Some (BStr []); Some (BTable [])] [0; 1] [None; Some (BTable [])].
Proof. intros (_ & F & _). specialize (F 1 ltac:(cbn; auto)). discriminate F. Qed.

Print Assumptions C97_free.
Print Assumptions C97_parse.
Print Assumptions C97_no_leak.
Print Assumptions C97_undefined.
Print Assumptions C97_independent.
