(** * Messages of d3plot readers: proofs *)
From Verif Require Import CBase CBaseFacts BinModel TimedModel D3BufModel D3Model D3ReadModel D3MsgModel D3MsgSpec.
Open Scope nat_scope.

Ltac lens := rewrite ?app_length in *; repeat match goal with
  | |- context [length (bs ?s)] => let n := eval vm_compute in (length (bs s)) in change (length (bs s)) with n
  | H : context [length (bs ?s)] |- _ => let n := eval vm_compute in (length (bs s)) in change (length (bs s)) with n in H
  end.
Lemma decimal_length : forall n z acc, length (decimal n z acc) <= n + length acc.
Proof.
  induction n as [|n IH]; intros z acc; cbn [decimal]; [lia|]. destruct (z <? 10)%Z; [cbn; lia|]. etransitivity; [apply IH|]. cbn [length]. lia.
Qed.
Lemma nat_string_length k : length (nat_string k) <= 20.
Proof. unfold nat_string. etransitivity; [apply decimal_length|]. cbn. lia. Qed.
Lemma fits m : length m < 1024 -> error_string m = OK m.
Proof. intros L. unfold error_string. rewrite (proj2 (Nat.ltb_lt _ _) L). reflexivity. Qed.
Lemma too_long m : 1024 <= length m -> error_string m = UB.
Proof. intros L. unfold error_string. rewrite (proj2 (Nat.ltb_ge _ _) L). reflexivity. Qed.
Lemma error_string_inv m : (error_string m = OK m /\ length m < 1024) \/ (error_string m = UB /\ 1024 <= length m).
Proof. destruct (Nat.lt_ge_cases (length m) 1024) as [L|L]; [left; split; [apply fits|]|right; split; [apply too_long|]]; exact L. Qed.

(** [t] does what [m] does; if it does not, [long]. *)
Definition follows {X Y} (long : Prop) (m : res X) (t : res Y) (er : Y -> X) (post : Y -> Prop) : Prop :=
  match t with OK y => m = OK (er y) /\ post y | OOF => m = OOF | UB => m = UB \/ long end.
Lemma follows_weaken {X Y} (l l' : Prop) (m : res X) (t : res Y) er (p p' : Y -> Prop) : (l -> l') -> (forall y, p y -> p' y) -> follows l m t er p -> follows l' m t er p'.
Proof. unfold follows. intros A B. destruct t; tauto || intros (E & P); auto. Qed.

Definition agrees (b : tbuf) : Prop := d_err (tb b) = None <-> tb_text b = None.
Lemma say_agrees b e m : agrees (say b e m).
Proof. unfold agrees. cbn. split; discriminate. Qed.
Lemma agrees_some b m : agrees b -> tb_text b = Some m -> exists e, d_err (tb b) = Some e.
Proof. unfold agrees. intros A T. destruct (d_err (tb b)) as [e|]; [eauto|]. destruct A as [A _]. specialize (A eq_refl). congruence. Qed.

Section Why.
Context (why : cstr).
Notation wordy := (900 < length why).

Lemma m_open_next_length i : length (m_open_next i why) <= 49 + length why.
Proof. unfold m_open_next. pose proof (nat_string_length i). lens. lia. Qed.

Lemma t_next_file_ok b p : agrees b -> follows wordy (next_file (tb b) p) (t_next_file why b p) (fun x => (tb (fst (fst x)), snd (fst x), snd x))
  (fun x => agrees (fst (fst x)) /\ (tb_text b = None -> match tb_text (fst (fst x)) with None => True | Some m => snd x = false /\ exists i f, nth_error (d_files (tb b)) i = Some f /\ f_ok f = false /\ m = m_open_next i why end) /\ (snd x = true -> fst (fst x) = b) /\ d_files (tb (fst (fst x))) = d_files (tb b)).
Proof.
  intros A. unfold next_file, t_next_file. destruct (cur_file (tb b) p) as [[i f]| |]; cbn [bind follows]; auto.
  destruct (pointer_close (tb b) p) as [p'| |]; cbn [bind follows]; auto.
  destruct (_ =? _); [cbn; rewrite ?A; split; [reflexivity|split; [exact A|split; [intros ->; exact I|split; [discriminate|reflexivity]]]]|].
  destruct (aget _ _) as [g| |] eqn:G; cbn [bind follows]; auto. destruct (f_ok g) eqn:Gk; [cbn; split; [reflexivity|split; [exact A|split; [intros ->; exact I|split; reflexivity]]]|].
  unfold sayf. destruct (error_string_inv (m_open_next (i + 1) why)) as [(-> & L)|(-> & L)]; cbn [bind follows].
  - split; [reflexivity|]. split; [apply say_agrees|]. split; [cbn; intros _; split; [reflexivity|apply aget_OK in G; eauto]|split; [cbn; discriminate|reflexivity]].
  - right. pose proof (m_open_next_length (i + 1)). lia.
Qed.

Definition says (P : derr -> cstr -> Prop) (b : tbuf) : Prop := match tb_text b with None => True | Some m => exists e, d_err (tb b) = Some e /\ P e m end.
Lemma say_says (P : derr -> cstr -> Prop) b e m : P e m -> says P (say b e m).
Proof. intros H. exists e. split; [reflexivity|exact H]. Qed.
Lemma quiet_says (P : derr -> cstr -> Prop) b : tb_text b = None -> says P b.
Proof. unfold says. intros ->. exact I. Qed.
Lemma t_read_loop_ok : forall fuel b p n acc, agrees b -> tb_text b = None ->
  follows wordy (read_loop fuel (tb b) p n acc) (t_read_loop why fuel b p n acc) (fun x => (tb (fst (fst x)), snd (fst x), snd x))
    (fun x => agrees (fst (fst x)) /\ says (read_message why (d_files (tb b))) (fst (fst x))).
Proof.
  induction fuel as [|fuel IH]; intros b p n acc A T; [reflexivity|]. cbn [read_loop t_read_loop].
  destruct (_ <? _)%Z; [|cbn; auto using quiet_says].
  destruct (cur_file (tb b) p) as [[i f]| |]; cbn [bind follows]; auto.
  destruct (_ <=? _)%Z.
  - destruct (fread_items _ _ _ _) as [d c]. destruct (c =? _)%Z; cbn; [auto using quiet_says|]. split; [reflexivity|]. split; [apply (say_agrees b E_read m_read)|apply (say_says _ b E_read m_read); constructor].
  - destruct (if (_ : bool) then (_ : list Z * Z) else fread_items _ _ _ _) as [d c]. destruct (c =? _)%Z; [|cbn; split; [reflexivity|split; [apply (say_agrees b E_read m_read)|apply (say_says _ b E_read m_read); constructor]]].
    match goal with |- context [t_next_file why b ?q] => pose proof (t_next_file_ok b q A) as N; destruct (t_next_file why b q) as [[[b' p''] ok]| |]; cbn [follows fst snd] in N end.
    + destruct N as (-> & A' & M & K & Fs). specialize (M T). cbn [bind]. destruct ok.
      * rewrite (K eq_refl) in *. apply IH; auto.
      * destruct (tb_text b') as [m|] eqn:T'.
        -- assert (exists e, d_err (tb b') = Some e) as (e & ->) by (eapply agrees_some; eauto).
           destruct M as (_ & j & g & Gj & Gk & ->). unfold sayf. destruct (error_string_inv (m_switch (m_open_next j why))) as [(-> & L)|(-> & L)]; cbn [bind follows].
           ++ split; [reflexivity|]. split; [apply say_agrees|]. apply say_says. apply (Says_next why _ j g); assumption.
           ++ right. pose proof (m_open_next_length j). unfold m_switch in L. rewrite app_length in L. lens. lia.
        -- rewrite (proj2 A' T'). cbn. split; [reflexivity|]. split; [apply (say_agrees b' E_too_much m_too_much)|apply (say_says _ b' E_too_much m_too_much); constructor].
    + destruct N as [N|N]; [rewrite N; left; reflexivity|right; exact N].
    + rewrite N. reflexivity.
Qed.
Lemma t_read_words_ok b p n : agrees b -> tb_text b = None ->
  follows wordy (read_words (tb b) p n) (t_read_words why b p n) (fun x => (tb (fst (fst x)), snd (fst x), snd x))
    (fun x => agrees (fst (fst x)) /\ says (read_message why (d_files (tb b))) (fst (fst x))).
Proof.
  intros A T. unfold read_words, t_read_words. destruct (cur_file (tb b) p) as [[i f]| |]; cbn [bind follows]; auto.
  destruct (_ <=? _)%Z; [|apply t_read_loop_ok; auto].
  destruct (fread_items _ _ _ _) as [d c]. destruct (c =? _)%Z; cbn; [auto using quiet_says|]. split; [reflexivity|]. split; [apply (say_agrees b E_read m_read)|apply (say_says _ b E_read m_read); constructor].
Qed.
Lemma t_seek_ok b pos : agrees b -> follows wordy (seek (tb b) pos) (t_seek why b pos) (fun x => (tb (fst x), snd x))
  (fun x => agrees (fst x) /\ (fst x = b \/ says (seek_message why (d_files (tb b))) (fst x)) /\ d_files (tb (fst x)) = d_files (tb b)).
Proof.
  intros A. unfold seek, t_seek. destruct (locate _ _ _) as [[i q]|]; [|cbn; split; [reflexivity|split; [apply (say_agrees b E_oob m_oob)|split; [right; apply (say_says _ b E_oob m_oob); constructor|reflexivity]]]].
  destruct (aget _ _) as [f| |] eqn:G; cbn [bind follows]; auto. destruct (f_ok f) eqn:Gk.
  - destruct (fseek_to _) as [z|]; [cbn; auto|]. destruct (pointer_close _ _) as [p| |]; cbn [bind follows]; auto.
    cbn. split; [reflexivity|split; [apply (say_agrees b E_seek m_seek)|split; [right; apply (say_says _ b E_seek m_seek); constructor|reflexivity]]].
  - unfold sayf. destruct (error_string_inv (m_open_next i why)) as [(-> & L)|(-> & L)]; cbn [bind follows].
    + cbn. split; [reflexivity|]. split; [apply (say_agrees b E_open_next (m_open_next i why))|split; [right; apply (say_says _ b E_open_next (m_open_next i why)); apply aget_OK in G; apply (Says_open why _ i f); assumption|reflexivity]].
    + right. pose proof (m_open_next_length i). lia.
Qed.
Lemma seek_message_length fs k s : seek_message why fs k s -> length s <= 49 + length why.
Proof. intros [| |i f _ _]; [lens; lia|lens; lia|]. apply (m_open_next_length i). Qed.
Lemma read_message_length fs k s : read_message why fs k s -> length s <= 85 + length why.
Proof.
  intros [| |i f _ _]; [lens; lia|lens; lia|]. pose proof (nat_string_length i) as L. lens. lia.
Qed.
Lemma first_message_length b pos e m : first_message why b pos e m -> length m <= 85 + length why.
Proof. intros [R|(_ & b' & p & k & s & _ & _ & R & ->)]; [apply (read_message_length _ _ _ R)|]. apply seek_message_length in R. lens. lia. Qed.

(** Whatever the text before: the errors are those of the model without texts. *)
Lemma t_read_words_at_ok b n pos : agrees b ->
  follows (wordy \/ tb_text b <> None) (read_words_at (tb b) n pos) (t_read_words_at why b n pos) (fun x => (tb (fst (fst x)), snd (fst x), snd x))
    (fun x => agrees (fst (fst x)) /\ (tb_text b = None -> says (first_message why (tb b) pos) (fst (fst x)))).
Proof.
  intros A. unfold read_words_at, t_read_words_at. pose proof (t_seek_ok b pos A) as K. destruct (t_seek why b pos) as [[b' p]| |]; cbn [follows fst snd] in K.
  2:{ destruct K as [->|K]; [left; reflexivity|right; left; exact K]. } 2:{ rewrite K. reflexivity. }
  destruct K as (Es & A' & Z & Fs). rewrite Es. cbn [bind]. destruct (tb_text b') as [m|] eqn:T'.
  - assert (exists e, d_err (tb b') = Some e) as (e & De) by (eapply agrees_some; eauto). rewrite De.
    unfold sayf. destruct (error_string_inv (m_seek_failed m)) as [(-> & L)|(-> & L)]; cbn [bind follows].
    + split; [reflexivity|]. split; [apply say_agrees|]. intros T. apply say_says. right. split; [reflexivity|]. destruct Z as [->|Z]; [congruence|]. unfold says in Z. rewrite T' in Z. destruct Z as (k & Dk & Z). exists (tb b'), p, k, m. split; [exact Es|]. auto.
    + right. destruct Z as [->|Z]; [right; congruence|]. left. unfold says in Z. rewrite T' in Z. destruct Z as (k & _ & Z). apply seek_message_length in Z. unfold m_seek_failed in L. lens. lia.
  - rewrite (proj2 A' T'). eapply follows_weaken; [| |apply t_read_words_ok; auto]; [tauto|]. intros y (B & C). split; [exact B|]. intros _. unfold says in *. destruct (tb_text (fst (fst y))); [|exact I]. destruct C as (k & Dk & C). exists k. split; [exact Dk|]. left. rewrite <- Fs. exact C.
Qed.

(** ** The plot *)
Definition buf_ok (pl : tplot) : Prop := d_err (pl_buf (tp pl)) = None <-> tp_btext pl = None.
(** Behind a call of a body: the error of the plot is as told. *)
Definition told (pl : tplot) (pos : Z) (pl' : tplot) (r : option (list Z)) : Prop :=
  buf_ok pl' /\ (tp_text pl' = None <-> pl_err (tp pl') = None) /\
  match r with
  | Some _ => tp_text pl' = tp_text pl /\ tp_btext pl' = None
  | None => exists m, tp_btext pl' = Some m /\ tp_text pl' = Some (m_words m) /\ (tp_btext pl = None -> exists e, d_err (pl_buf (tp pl')) = Some e /\ first_message why (pl_buf (tp pl)) pos e m)
  end.
Lemma t_read_at_ok pl n pos : buf_ok pl -> tp_text pl = None -> pl_err (tp pl) = None ->
  follows (wordy \/ tp_btext pl <> None) (read_bytes_at (tp pl) n pos) (t_read_at why pl n pos) (fun x => (tp (fst x), snd x)) (fun x => told pl pos (fst x) (snd x)).
Proof.
  intros A Tn En. unfold read_bytes_at, t_read_at. set (b := {| tb := pl_buf (tp pl); tb_text := tp_btext pl |}).
  pose proof (t_read_words_at_ok b n pos A) as K. change (tb b) with (pl_buf (tp pl)) in K. destruct (t_read_words_at why b n pos) as [[[b' p] d]| |]; cbn [follows fst snd] in K.
  2:{ destruct K as [->|K]; [left; reflexivity|right; exact K]. } 2:{ rewrite K. reflexivity. }
  destruct K as (-> & A' & M). cbn [bind]. destruct (pointer_close (tb b') p) as [p'| |]; cbn [bind follows]; auto.
  destruct (tb_text b') as [m|] eqn:T'.
  - assert (exists e, d_err (tb b') = Some e) as (e & E) by (eapply agrees_some; eauto). rewrite E.
    destruct (error_string_inv (m_words m)) as [(-> & L)|(-> & L)]; cbn [bind follows].
    + split; [reflexivity|]. split; [|split].
      * unfold buf_ok. cbn. rewrite E. split; discriminate.
      * cbn. split; discriminate.
      * cbn. exists m. split; [reflexivity|]. split; [reflexivity|]. intros N. specialize (M N). unfold says in M. rewrite T' in M. exact M.
    + right. destruct (tp_btext pl) as [x|] eqn:Tb; [right; discriminate|]. left. specialize (M eq_refl). unfold says in M. rewrite T' in M. destruct M as (k & _ & M). apply first_message_length in M. unfold m_words in L. lens. lia.
  - rewrite (proj2 A' T'). cbn. split; [reflexivity|]. split; [|split; [cbn; rewrite Tn, En; tauto|split; [reflexivity|reflexivity]]].
    unfold buf_ok. cbn. rewrite (proj2 A' T'). tauto.
Qed.
Lemma follows_bind {X Y X' Y'} long (m : res X) (t : res Y) (er : Y -> X) (post : Y -> Prop) (f : X -> res X') (g : Y -> res Y') (er' : Y' -> X') (post' : Y' -> Prop) :
  follows long m t er post -> (forall y, post y -> follows long (f (er y)) (g y) er' post') -> follows long (bind m f) (bind t g) er' post'.
Proof. unfold follows at 1. destruct t as [y| |]; intros A B; cbn [bind]; [destruct A as (-> & P); exact (B y P)| |]; [destruct A as [->|A]; [left; reflexivity|right; exact A]|subst m; reflexivity]. Qed.
Definition plot_ok (pl : tplot) : Prop := buf_ok pl /\ tp_text pl = None /\ pl_err (tp pl) = None.
Lemma read_at_t pl n pos : plot_ok pl ->
  follows (wordy \/ tp_btext pl <> None) (read_at (tp pl) n pos)
    (do ' (pl, d) <- t_read_at why pl n pos; OK (pl, match d with Some d => Some (words (Z.to_nat n) (d_ws (pl_buf (tp pl))) d) | None => None end))
    (fun x => (tp (fst x), snd x)) (fun x => told pl pos (fst x) (snd x)).
Proof.
  intros (A & T & E). unfold read_at. eapply follows_bind; [apply t_read_at_ok; auto|].
  intros [pl' d] Q. cbn [fst snd] in Q |- *. cbn [follows]. split; [reflexivity|]. cbn [fst snd]. destruct d as [d|]; exact Q.
Qed.
(** A call without an answer: the state does not exist, or a read has failed. *)
Definition call_told (pl : tplot) (c : call) (pl' : tplot) (r : option (list Z)) : Prop :=
  texts_ok pl' /\
  match r with
  | Some _ => tp_text pl' = None /\ (tp_btext pl = None -> tp_btext pl' = None)
  | None => (exists s, c = Time s /\ tp_text pl' = Some (nat_string s ++ bs " is out of bounds for the states") /\ tp_btext pl' = tp_btext pl) \/
            exists m, tp_btext pl' = Some m /\ tp_text pl' = Some (m_words m) /\ (tp_btext pl = None -> exists n pos e, request (tp pl) c = Some (n, pos) /\ d_err (pl_buf (tp pl')) = Some e /\ first_message why (pl_buf (tp pl)) pos e m)
  end.
Lemma told_call pl c n pos pl' r : request (tp pl) c = Some (n, pos) -> told (t_clear pl) pos pl' r -> call_told pl c pl' r.
Proof.
  intros Rq (B & T & R). split; [split; [exact B|tauto]|]. destruct r as [l|]; [destruct R as (Ra & Rb); split; [exact Ra|intros _; exact Rb]|]. right. destruct R as (m & R1 & R2 & R3). exists m. split; [exact R1|]. split; [exact R2|]. intros N. destruct (R3 N) as (e & A & C). exists n, pos, e. split; [exact Rq|]. split; [exact A|exact C].
Qed.
Lemma t_ids_ok pl c k num : texts_ok pl -> (forall r, shown c r = or_null r) -> ((num =? 0)%Z = false -> request (tp pl) c = Some (num, pl_ptr (tp pl) k)) ->
  follows (wordy \/ tp_btext pl <> None) (read_ids (tp pl) k num) (t_ids why (t_clear pl) k num) (fun x => (tp (fst x), shown c (snd x))) (fun x => call_told pl c (fst x) (snd x)).
Proof.
  intros (B & T) Sh Rq. unfold read_ids, t_ids. destruct (num =? 0)%Z.
  - cbn [follows fst snd]. rewrite Sh. split; [reflexivity|]. split; [split; [exact B|cbn; tauto]|]. split; [reflexivity|]. cbn. auto.
  - change (clear (tp pl)) with (tp (t_clear pl)). change (tp_btext pl) with (tp_btext (t_clear pl)).
    assert (P : plot_ok (t_clear pl)) by (split; [exact B|split; reflexivity]). pose proof (read_at_t (t_clear pl) num (pl_ptr (tp (t_clear pl)) k) P) as K.
    destruct (do ' (_, _) <- _; _) as [[pl' r]| |]; cbn [follows fst snd] in K |- *.
    + destruct K as (-> & K). cbn [bind]. rewrite Sh. split; [reflexivity|]. exact (told_call _ _ _ _ _ _ (Rq eq_refl) K).
    + destruct K as [->|K]; [left; reflexivity|right; exact K].
    + rewrite K. reflexivity.
Qed.
Lemma t_call_ok pl c : texts_ok pl ->
  follows (wordy \/ tp_btext pl <> None) (c_call (tp pl) c) (t_call why pl c) (fun x => (tp (fst x), shown c (snd x))) (fun x => call_told pl c (fst x) (snd x)).
Proof.
  intros O. assert (P : plot_ok (t_clear pl)) by (split; [exact (proj1 O)|split; reflexivity]).
  unfold c_call, t_call. destruct c as [| | | | | | |s]; try (apply t_ids_ok; [exact O|intros [|]; reflexivity|intros Nz; cbn; rewrite ?Nz; cbn in Nz; rewrite ?Nz; reflexivity]).
  - unfold read_title. pose proof (t_read_at_ok (t_clear pl) 10 (pl_ptr (tp (t_clear pl)) K_TITLE) (proj1 P) eq_refl eq_refl) as K. change (tp (t_clear pl)) with (clear (tp pl)) in *.
    destruct (t_read_at _ _ _ _) as [[pl' r]| |]; cbn [follows fst snd] in K |- *.
    + destruct K as (-> & K). cbn [bind]. split; [destruct r; reflexivity|]. eapply told_call; [reflexivity|exact K].
    + destruct K as [->|K]; [left; reflexivity|right; exact K].
    + rewrite K. reflexivity.
  - unfold read_epoch_run_time, read_at. pose proof (t_read_at_ok (t_clear pl) 1 (pl_ptr (tp (t_clear pl)) K_RUN_TIME) (proj1 P) eq_refl eq_refl) as K. change (tp (t_clear pl)) with (clear (tp pl)) in *.
    destruct (t_read_at _ _ _ _) as [[pl' r]| |]; cbn [follows fst snd bind] in K |- *.
    + destruct K as (-> & K). cbn [bind]. split; [destruct r; reflexivity|]. eapply told_call; [reflexivity|]. destruct r; exact K.
    + destruct K as [->|K]; [left; reflexivity|right; exact K].
    + rewrite K. reflexivity.
  - unfold read_time, read_at. change (tp (t_clear pl)) with (clear (tp pl)). destruct (state_at (clear (tp pl)) s) as [q|] eqn:Sq.
    + pose proof (t_read_at_ok (t_clear pl) 1 (u64 (q + pl_ptr (tp (t_clear pl)) K_STATE_TIME)) (proj1 P) eq_refl eq_refl) as K. change (tp (t_clear pl)) with (clear (tp pl)) in *.
      destruct (t_read_at _ _ _ _) as [[pl' r]| |]; cbn [follows fst snd bind] in K |- *.
      * destruct K as (-> & K). cbn [bind]. split; [destruct r; reflexivity|]. eapply told_call; [|destruct r; exact K]. cbn [request]. change (state_at (tp pl) s) with (state_at (clear (tp pl)) s). rewrite Sq. reflexivity.
      * destruct K as [->|K]; [left; reflexivity|right; exact K].
      * rewrite K. reflexivity.
    + rewrite fits by (pose proof (nat_string_length s); lens; lia). cbn [bind follows fst snd]. split; [reflexivity|].
      split; [split; [exact (proj1 O)|cbn; split; discriminate]|]. left. exists s. split; [reflexivity|]. split; reflexivity.
Qed.

(** ** Calls behind an error *)
Lemma seek_again pl m n pos p : tp_btext pl = Some m -> seek (clear_err (pl_buf (tp pl))) pos = OK (clear_err (pl_buf (tp pl)), p) ->
  t_read_at why pl n pos = if 49 + length m <? 1024 then
    OK ({| tp := with_err (with_buf (tp pl) (set_err (pl_buf (tp pl)) E_seek_failed)) (Some P_words); tp_text := Some (m_words (m_seek_failed m)); tp_btext := Some (m_seek_failed m) |}, None)
  else UB.
Proof.
  intros T E. set (b := pl_buf (tp pl)) in *. unfold t_read_at, t_read_words_at, t_seek. cbn [tb]. fold b. unfold seek in E. cbn [clear_err d_files d_ws] in E.
  destruct (locate _ _ _) as [[i q]|]; [|unfold set_err, clear_err in E; discriminate].
  destruct (aget (d_files b) i) as [f| |] eqn:Ef; cbn [bind] in E |- *; try discriminate.
  destruct (f_ok f) eqn:Ok; [|unfold set_err, clear_err in E; discriminate].
  destruct (fseek_to _) as [x|]; [|unfold pointer_close, cur_file in E; cbn [p_file clear_err d_files] in E; rewrite Ef in E; unfold set_err, clear_err in E; discriminate].
  cbn [bind tb_text]. rewrite T. unfold sayf. destruct (error_string_inv (m_seek_failed m)) as [(-> & L)|(-> & L)]; cbn [bind].
  - unfold pointer_close, cur_file. cbn [say tb set_err d_files p_file tb_text]. change (tb {| tb := b; tb_text := Some m |}) with b. rewrite Ef. cbn [bind].
    destruct (error_string_inv (m_words (m_seek_failed m))) as [(-> & L')|(-> & L')]; cbn [bind].
    + rewrite (proj2 (Nat.ltb_lt _ _)); [reflexivity|]. unfold m_words, m_seek_failed in L'. lens. lia.
    + rewrite (proj2 (Nat.ltb_ge _ _)); [reflexivity|]. unfold m_words, m_seek_failed in L'. lens. lia.
  - rewrite (proj2 (Nat.ltb_ge _ _)); [reflexivity|]. unfold m_seek_failed in L. lens. lia.
Qed.
Definition stuck (pl : tplot) (m : cstr) : tplot :=
  {| tp := with_err (with_buf (clear (tp pl)) (set_err (pl_buf (tp pl)) E_seek_failed)) (Some P_words); tp_text := Some (m_words (m_seek_failed m)); tp_btext := Some (m_seek_failed m) |}.
Lemma call_again pl m c : tp_btext pl = Some m -> inside (tp pl) c ->
  t_call why pl c = if 49 + length m <? 1024 then OK (stuck pl m, None) else UB.
Proof.
  intros T (n & pos & p & R & E).
  assert (K : forall k, t_read_at why (t_clear pl) k pos = if 49 + length m <? 1024 then OK (stuck pl m, None) else UB).
  { intros k. rewrite (seek_again (t_clear pl) m k pos p T E). reflexivity. }
  destruct c as [| | | | | | |s]; cbn [request] in R; unfold t_call, t_ids; cbn [t_clear tp]; change (pl_ptr (clear (tp pl))) with (pl_ptr (tp pl)); change (pl_cd (clear (tp pl))) with (pl_cd (tp pl));
    try change (state_at (clear (tp pl)) s) with (state_at (tp pl) s);
    try match type of R with (if ?t then _ else _) = _ => destruct t; [discriminate|] | match ?t with _ => _ end = _ => destruct t; [|discriminate] end;
    injection R as _ ->; change {| tp := clear (tp pl); tp_text := None; tp_btext := tp_btext pl |} with (t_clear pl); rewrite K; destruct (_ <? 1024); reflexivity.
Qed.
Lemma stuck_inside pl m c : inside (tp pl) c -> inside (tp (stuck pl m)) c.
Proof. intros (n & pos & p & R & E). exists n, pos, p. split; [exact R|exact E]. Qed.
Lemma stuck_ok pl m : texts_ok (stuck pl m).
Proof. split; cbn; split; discriminate. Qed.
Lemma again_out n m : again n (bs "Failed to seek the buffer: " ++ m) = bs "Failed to seek the buffer: " ++ again n m.
Proof. induction n as [|n IH]; [reflexivity|]. cbn [again]. rewrite IH. reflexivity. Qed.
Lemma again_length n m : length (again n m) = 27 * n + length m.
Proof. induction n as [|n IH]; [reflexivity|]. cbn [again]. lens. rewrite IH. lia. Qed.
Lemma calls_again : forall cs pl m, tp_btext pl = Some m -> Forall (inside (tp pl)) cs -> cs <> [] ->
  if 22 + 27 * length cs + length m <? 1024
  then exists pl', t_calls why pl cs = OK (pl', repeat None (length cs)) /\ tp_text pl' = Some (bs "Failed to read words: " ++ again (length cs) m) /\ tp_btext pl' = Some (again (length cs) m) /\ texts_ok pl'
  else t_calls why pl cs = UB.
Proof.
  induction cs as [|c cs IH]; intros pl m T F N; [congruence|]. inversion_clear F as [|? ? Fc Fs]. cbn [t_calls]. rewrite (call_again pl m c T Fc).
  destruct cs as [|c' cs].
  - change (length [c]) with 1. replace (22 + 27 * 1 + length m) with (49 + length m) by lia. destruct (_ <? 1024); [|reflexivity]. cbn [bind t_calls]. exists (stuck pl m). repeat (split; [reflexivity|]). apply stuck_ok.
  - assert (Fs' : Forall (inside (tp (stuck pl m))) (c' :: cs)) by (eapply Forall_impl; [|exact Fs]; intros x; apply stuck_inside).
    specialize (IH (stuck pl m) (m_seek_failed m) eq_refl Fs' ltac:(discriminate)).
    set (l := c' :: cs) in *. assert (E : 22 + 27 * length l + length (m_seek_failed m) = 22 + 27 * length (c :: l) + length m) by (unfold m_seek_failed; cbn [length]; lens; lia).
    rewrite E in IH. destruct (_ <? 1024) eqn:B in IH.
    + rewrite B. rewrite (proj2 (Nat.ltb_lt (49 + length m) 1024)) by (apply Nat.ltb_lt in B; cbn [length] in B; unfold l in B; cbn [length] in B; lia). cbn [bind].
      destruct IH as (pl' & -> & A1 & A2 & A3). cbn [bind]. exists pl'. split; [reflexivity|]. unfold m_seek_failed in A1, A2. rewrite again_out in A1, A2. split; [exact A1|]. split; [exact A2|exact A3].
    + rewrite B. destruct (49 + length m <? 1024); [|reflexivity]. cbn [bind]. rewrite IH. reflexivity.
Qed.
End Why.

(** ** Opening *)
Lemma probe_err b w d b' v : probe b w d = OK (b', v) -> d_err b' = None.
Proof.
  unfold probe. destruct (read_words_at _ _ _) as [[[x p] l]| |]; cbn [bind]; try discriminate. destruct (pointer_close _ _); cbn [bind]; try discriminate.
  destruct (d_err x) eqn:E; intros [= <- _]; [reflexivity|exact E].
Qed.
Lemma probe_all_err b b' v : probe_all b = OK (b', v) -> d_err b' = None.
Proof.
  unfold probe_all. do 4 (destruct (probe _ _ _) as [[? ?]| |]; cbn [bind]; try discriminate). destruct (probe _ _ _) as [[x y]| |] eqn:E; cbn [bind]; try discriminate. intros [= <- _]. apply probe_err in E. exact E.
Qed.
