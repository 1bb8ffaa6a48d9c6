(** * Property C106: errors of d3plots have a message, and leave the plot usable *)
From Verif Require Import CBase CBaseFacts BinModel TimedModel D3BufModel D3Model D3Spec D3OpenProofs D3ReadModel D3ReadSpec D3ReadProofs D3Rich PropD3Read OwnModel ReadMemModel PropReadMem D3MsgModel D3MsgSpec D3MsgProofs.
Open Scope nat_scope.

(** The first error of a plot: the call does what it does without texts, and the message
    tells what happened.  ([why]: the system's words for a file that cannot be opened.) *)
Theorem C106_first_partial : forall why pl c, texts_ok pl -> tp_btext pl = None -> length why <= 900 ->
  match t_call why pl c with
  | OK (pl', r) => c_call (tp pl) c = OK (tp pl', shown c r) /\ texts_ok pl' /\
      match r with
      | Some _ => tp_text pl' = None /\ tp_btext pl' = None
      | None => (exists s, c = Time s /\ tp_text pl' = Some (nat_string s ++ bs " is out of bounds for the states") /\ tp_btext pl' = None) \/
                exists n pos e m, request (tp pl) c = Some (n, pos) /\ d_err (pl_buf (tp pl')) = Some e /\ first_message why (pl_buf (tp pl)) pos e m /\
                  tp_text pl' = Some (bs "Failed to read words: " ++ m) /\ tp_btext pl' = Some m
      end
  | UB => c_call (tp pl) c = UB
  | OOF => c_call (tp pl) c = OOF
  end.
Proof.
  intros why pl c O T L. pose proof (t_call_ok why pl c O) as K. destruct (t_call why pl c) as [[pl' r]| |]; cbn [follows fst snd] in K.
  - destruct K as (-> & O' & R). split; [reflexivity|]. split; [exact O'|]. rewrite T in R. destruct r as [l|]; [destruct R as (A & B); auto|].
    destruct R as [R|(m & A & B & M)]; [left; exact R|]. right. destruct (M eq_refl) as (n & pos & e & M1 & M2 & M3). exists n, pos, e, m. repeat (split; [eassumption|]). exact A.
  - destruct K as [K|[K|K]]; [exact K|exfalso; lia|exfalso; apply K; exact T].
  - exact K.
Qed.
(** Any call: what it returns and whether it fails is as without texts. *)
Theorem C106_same_errors : forall why pl c, texts_ok pl -> forall pl' r, t_call why pl c = OK (pl', r) ->
  c_call (tp pl) c = OK (tp pl', shown c r) /\ texts_ok pl' /\ (r = None -> tp_text pl' <> None) /\ (r <> None -> tp_text pl' = None).
Proof.
  intros why pl c O pl' r E. pose proof (t_call_ok why pl c O) as K. rewrite E in K. destruct K as (K & O' & R). cbn [fst snd] in *. split; [exact K|]. split; [exact O'|]. destruct r as [l|].
  - split; [discriminate|]. intros _. apply R.
  - split; [intros _|congruence]. destruct R as [(s & _ & -> & _)|(m & _ & -> & _)]; discriminate.
Qed.

(** ** Behind a failed read *)
(** The buffer never forgets its error: no read succeeds any more, whatever it asks for ... *)
Theorem C106_no_recovery_refuted : forall why pl m cs, texts_ok pl -> tp_btext pl = Some m -> Forall (inside (tp pl)) cs -> cs <> [] ->
  22 + 27 * length cs + length m < 1024 ->
  exists pl', t_calls why pl cs = OK (pl', repeat None (length cs)) /\ tp_text pl' = Some (bs "Failed to read words: " ++ again (length cs) m) /\ texts_ok pl'.
Proof.
  intros why pl m cs O T F N L. pose proof (calls_again why cs pl m T F N) as K. rewrite (proj2 (Nat.ltb_lt _ _) L) in K.
  destruct K as (pl' & A & B & _ & D). exists pl'. auto.
Qed.
(** ... every call makes the message 27 characters longer, until it does not fit into the
    array of 1024 bytes it is formatted in: the 38th call at the latest. *)
Theorem C106_overflow_refuted : forall why pl m cs, texts_ok pl -> tp_btext pl = Some m -> Forall (inside (tp pl)) cs ->
  (1024 <= 22 + 27 * length cs + length m /\ cs <> []) \/ 38 <= length cs -> t_calls why pl cs = UB.
Proof.
  intros why pl m cs O T F L. assert (N : cs <> []) by (destruct L as [(_ & N)|L]; [exact N|intros ->; cbn in L; lia]).
  pose proof (calls_again why cs pl m T F N) as K. rewrite (proj2 (Nat.ltb_ge _ _)) in K; [exact K|]. lia.
Qed.

(** ** Opening *)
Theorem C106_open_partial : forall fs root,
  match open_message fs root with
  | OK None => exists b, open fs root = OK b /\ d_err b = None
  | OK (Some m) => (exists b e, open fs root = OK b /\ d_err b = Some e) /\
      ((family MAX_FILES fs root 0 = [] /\ m = bs "No files with the name " ++ root ++ bs " do exist") \/
       (exists d, In d [bs "0"; bs "1"] /\ m = bs "The d3plot files are broken. 32-Bit (Single Precision)=" ++ d ++ bs " 64-Bit (Double Precision)=" ++ d))
  | UB => open fs root = UB
  | OOF => open fs root = OOF
  end.
Proof.
  intros fs root. unfold open_message, open. destruct (length _ =? 0) eqn:F.
  - apply Nat.eqb_eq, length_zero_iff_nil in F.
    destruct (error_string_inv (bs "No files with the name " ++ root ++ bs " do exist")) as [(-> & L)|(-> & L)]; cbn [bind]; lens.
    + rewrite (proj2 (Nat.leb_le (length root + 33) 1024)) by lia. split; [eexists _, E_no_files; split; reflexivity|]. left. auto.
    + rewrite (proj2 (Nat.leb_gt _ _)) by lia. reflexivity.
  - destruct (probe_all (set_ws _ 4)) as [[b1 m32]| |]; cbn [bind]; try reflexivity.
    destruct (probe_all (set_ws b1 8)) as [[b2 m64]| |] eqn:E; cbn [bind]; try reflexivity. apply probe_all_err in E.
    destruct m32, m64; cbn [negb andb orb].
    + rewrite fits by (pose proof (nat_string_length 1); lens; lia). cbn [bind]. split; [eexists _, E_broken; split; reflexivity|]. right. exists (bs "1"). split; [right; left; reflexivity|reflexivity].
    + eexists. split; [reflexivity|exact E].
    + eexists. split; [reflexivity|exact E].
    + rewrite fits by (pose proof (nat_string_length 0); lens; lia). cbn [bind]. split; [eexists _, E_broken; split; reflexivity|]. right. exists (bs "0"). split; [left; reflexivity|reflexivity].
Qed.
(** A name of 992 or more characters that does not exist. *)
Theorem C106_long_name_refuted : forall fs root, family MAX_FILES fs root 0 = [] -> 992 <= length root -> open fs root = UB.
Proof.
  intros fs root F L. unfold open. rewrite F. change (length (@nil dfile) =? 0) with true. cbn iota. rewrite (proj2 (Nat.leb_gt _ _)); [reflexivity|]. lia.
Qed.
(** A file of another type is named; the message always fits into its 50 bytes. *)
Theorem C106_file_type : forall word, (0 <= word)%Z ->
  (exists r, file_type_message word = OK r) /\
  (file_type_message word = OK None <-> (word = 1 \/ word = 1001)%Z) /\
  (forall t name, In (t, name) file_types -> (t <> 1)%Z -> file_type_message t = OK (Some (bs "Wrong file type: " ++ name)) /\ file_type_message (t + 1000) = OK (Some (bs "Wrong file type: " ++ name))) /\
  ((forall t name, In (t, name) file_types -> word <> t /\ word <> (t + 1000)%Z) -> file_type_message word = OK (Some (bs "Wrong file type: invalid"))).
Proof.
  intros word P. assert (K : forall t, length (bs "Wrong file type: " ++ file_type_name t) <= 24).
  { intros t. unfold file_type_name. repeat (match goal with |- context [(?a =? ?b)%Z] => destruct (a =? b)%Z end; [lens; lia|]). lens. lia. }
  split; [|split; [|split]].
  - unfold file_type_message. destruct (_ =? 1)%Z; [eauto|]. match goal with |- context [file_type_name ?x] => specialize (K x) end. rewrite (proj2 (Nat.leb_le _ _)) by lia. eauto.
  - unfold file_type_message. destruct (Z.ltb_spec 1000 word).
    + destruct (Z.eqb_spec (word - 1000) 1); [split; [intros _; lia|reflexivity]|]. split; [destruct (_ <=? 50); discriminate|intros; lia].
    + destruct (Z.eqb_spec word 1); [split; [auto|reflexivity]|]. split; [destruct (_ <=? 50); discriminate|intros; lia].
  - intros t name I N. cbn [file_types In] in I. repeat (destruct I as [I|I]; [injection I as <- <-; first [congruence|split; reflexivity]|]). destruct I.
  - intros Out. assert (D : (word =? 1)%Z = false /\ (word - 1000 =? 1)%Z = false /\ file_type_name word = bs "invalid" /\ file_type_name (word - 1000) = bs "invalid").
    { assert (Q : forall t, In t (map fst file_types) -> (word =? t)%Z = false /\ (word - 1000 =? t)%Z = false).
      { intros t I. apply in_map_iff in I. destruct I as ((t' & n) & <- & I). destruct (Out t' n I). cbn [fst]. split; apply Z.eqb_neq; lia. }
      unfold file_type_name. split; [apply Q; left; reflexivity|]. split; [apply Q; left; reflexivity|].
      split; repeat (match goal with |- context [(?a =? ?b)%Z] => let H := fresh in assert (H : (a =? b)%Z = false) by (apply Q; cbn [file_types map fst]; repeat first [left; reflexivity|right]); rewrite H; clear H end); reflexivity. }
    destruct D as (D1 & D2 & D3 & D4). unfold file_type_message. destruct (1000 <? word)%Z; rewrite ?D1, ?D2, ?D3, ?D4; reflexivity.
Qed.

(** ** Non-vacuity *)
Definition cut (n : nat) (pl : plot) : plot :=
  with_buf pl {| d_files := map (fun f => {| f_bytes := firstn (4 * n) (f_bytes f); f_size := f_size f; f_ok := f_ok f |}) (d_files (pl_buf pl)); d_ws := d_ws (pl_buf pl); d_err := d_err (pl_buf pl) |}.
Definition fresh (pl : plot) : tplot := {| tp := pl; tp_text := None; tp_btext := None |}.
Definition seen (m : res (tplot * list (option (list Z)))) : res (list (option (list Z)) * option cstr) := do ' (pl, l) <- m; OK (l, tp_text pl).
(** The words behind the 20th cannot be read. *)
Example C106_calls_case :
  on_rich (fun pl => seen (t_calls [] (fresh (cut 20 pl)) [Run_time; Node_ids])) = OK ([Some [0%Z]; None], Some (bs "Failed to read words: Read Error")) /\
  on_rich (fun pl => seen (t_calls [] (fresh (cut 20 pl)) [Node_ids; Run_time; Run_time])) =
    OK ([None; None; None], Some (bs "Failed to read words: Failed to seek the buffer: Failed to seek the buffer: Read Error")) /\
  on_rich (fun pl => do ' (pl, _) <- t_calls [] (fresh (cut 20 pl)) (Node_ids :: repeat Run_time 36); OK (option_map (@length Z) (tp_text pl))) = OK (Some 1004) /\
  on_rich (fun pl => t_calls [] (fresh (cut 20 pl)) (Node_ids :: repeat Run_time 37)) = UB.
Proof. repeat split; vm_compute; reflexivity. Qed.
(** Plots as opened have no texts; run time and title of any plot can be sought. *)
Example C106_fresh_case : forall b titles states pl, opened b titles states pl -> d_err (pl_buf pl) = None -> pl_err pl = None -> texts_ok (fresh pl).
Proof. intros b titles states pl _ A B. split; cbn; tauto. Qed.
Definition cut_buf : dbuf := {| d_files := map (fun f => {| f_bytes := firstn (4 * 20) (f_bytes f); f_size := f_size f; f_ok := f_ok f |}) (d_files rich3); d_ws := d_ws rich3; d_err := None |}.
Lemma cut_seek : exists p, seek cut_buf 10 = OK (cut_buf, p).
Proof. exists {| p_file := Some 0; p_word := 10; p_pos := 40 |}. vm_compute. reflexivity. Qed.
Example C106_inside_case : forall e, exists pl, opened rich3 148 [189; 358]%Z pl /\ inside (with_buf (cut 20 pl) (set_err (pl_buf (cut 20 pl)) e)) Run_time.
Proof.
  intros e. destruct rich3_opened as (pl & O). exists pl. split; [exact O|]. pose proof (opened_view _ _ _ _ O) as V. destruct cut_seek as (p & E).
  exists 1%Z, 10%Z, p. split.
  - cbn [request]. change (pl_ptr (with_buf (cut 20 pl) (set_err (pl_buf (cut 20 pl)) e)) K_RUN_TIME) with (pl_ptr pl K_RUN_TIME). rewrite (v_ptr _ _ _ _ V K_RUN_TIME (or_introl eq_refl)). reflexivity.
  - assert (Eq : clear_err (pl_buf (with_buf (cut 20 pl) (set_err (pl_buf (cut 20 pl)) e))) = cut_buf).
    { unfold cut, with_buf, set_err, clear_err, cut_buf. cbn [pl_buf d_files d_ws d_err]. rewrite (v_buf _ _ _ _ V). reflexivity. }
    rewrite Eq. exact E.
Qed.

Print Assumptions C106_first_partial.
Print Assumptions C106_same_errors.
Print Assumptions C106_no_recovery_refuted.
Print Assumptions C106_overflow_refuted.
Print Assumptions C106_open_partial.
Print Assumptions C106_long_name_refuted.
Print Assumptions C106_file_type.
