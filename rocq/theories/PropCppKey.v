(** * C67-C70: cards and keywords of the C++ interface *)
From Coq Require Import QArith Qpower.
From Verif Require Import CBase CBaseFacts SearchProofs StringProofs CardModel CardSpec CardProofs CardFloat CardType SearchSpec KeyTableModel KeyTableSpec PropCard PropKeyTable CppKeyModel CppKeySpec CppKeyProofs CppArrayProofs CppCardProofs.
Open Scope nat_scope.
Open Scope list_scope.

(** ** C67: parse<T> *)

(** A field with an integer: its value if T can represent it, otherwise an
    exception.  (Numbers of 2^63 and more are not covered.) *)
Theorem C67_int_partial : forall t s cur w z, in_card s cur w -> int_text (field s cur w) z -> moderate z ->
  (in_range t z -> parse_int t s cur w = OK (Returns z)) /\ (~ in_range t z -> parse_int t s cur w = OK Throws).
Proof. exact parse_int_text. Qed.

(** A value that is returned is in the range of T. *)
Theorem C67_in_range : forall t s cur w z, in_card s cur w -> w <= 18 -> parse_int t s cur w = OK (Returns z) -> in_range t z.
Proof.
  intros t s cur w z C W Q. unfold parse_int in Q. destruct (C14_int_fields_partial s cur w C W) as (o & E & Ho). rewrite E in Q. cbn [bind] in Q.
  set (v := match o with Some v => v | None => 0%Z end) in *.
  assert (M : moderate v).
  { unfold v. destruct o as [x|]; [|split; reflexivity]. destruct (proj1 (Ho x) eq_refl) as (b & neg & ds & t' & F & _ & Hd & _ & Hn).
    destruct (field_length s cur w (b ++ neg ++ ds) t' C ltac:(rewrite F, <- !app_assoc; reflexivity)) as [L _].
    rewrite !app_length in L. pose proof (dec_lt ds Hd) as D. assert (10 ^ Z.of_nat (length ds) <= 10 ^ 18)%Z by (apply Z.pow_le_mono_r; lia).
    unfold moderate. destruct Hn as [(_ & _ & ->)|(_ & ->)]; lia. }
  pose proof (limits t v M) as Lm. destruct ((v <? 0)%Z && is_unsigned t); [discriminate|]. destruct ((v <? 0)%Z && below_min t v); [discriminate|].
  destruct ((v >? 0)%Z && (v >? limit_max t)%Z); [discriminate|]. injection Q as <-. apply Lm. auto.
Qed.

(** What is missing: a field that is no integer does not throw (as
    documented) but gives 0. *)
Theorem C67_no_integer_refuted : forall t s cur w, in_card s cur w -> w <= 18 -> (forall z, ~ int_text (field s cur w) z) ->
  parse_int t s cur w = OK (Returns 0%Z).
Proof.
  intros t s cur w C W N. unfold parse_int. destruct (C14_int_fields_partial s cur w C W) as (o & E & Ho). rewrite E. cbn [bind].
  destruct o as [x|]; [exfalso; exact (N x (proj1 (Ho x) eq_refl))|]. destruct t; reflexivity.
Qed.

Example C67_case : parse_int TU8 (bs "       255") 0 10 = OK (Returns 255%Z) /\ parse_int TU8 (bs "       256") 0 10 = OK Throws /\
  parse_int TI8 (bs "      -128") 0 10 = OK (Returns (-128)%Z) /\ parse_int TI8 (bs "      -129") 0 10 = OK Throws /\
  parse_int TI32 (bs "       abc") 0 10 = OK (Returns 0%Z).
Proof. vm_compute. repeat split. Qed.
Example C67_case_hyp : in_card (bs "       255") 0 10 /\ int_text (field (bs "       255") 0 10) 255 /\ moderate 255 /\ in_range TU8 255 /\ ~ in_range TI8 255.
Proof.
  split; [split; [repeat constructor; simpl; lia|split; simpl; lia]|]. split; [|split; [split; reflexivity|split; [split; [discriminate|reflexivity]|intros (_ & X); discriminate]]].
  exists (bs "       "), [], (bs "255"), []. repeat split; [repeat constructor|repeat constructor; simpl; lia|left; reflexivity|]. left. repeat split. discriminate.
Qed.

(** ** C68: parse_whole *)

(** Every field of a card that fits is read from its own columns. *)
Theorem C68_whole_partial : forall s l, fits s (map snd l) ->
  (forall k t w, nth_error l k = Some (t, w) -> exists v, means t (field_of s (map snd l) k) v) ->
  exists vs, parse_whole_width Qarith s l = OK (Returns vs) /\ length vs = length l /\
    forall k t w, nth_error l k = Some (t, w) -> exists v, nth_error vs k = Some v /\ means t (field_of s (map snd l) k) v.
Proof.
  intros s l Fi M. pose proof Fi as (Hs & B & _). set (ws := map snd l) in *.
  assert (El : l = [] \/ l <> []) by (destruct l; [left; reflexivity|right; discriminate]).
  destruct El as [-> |El]; [exists []; repeat split; intros [|] ? ? Q; discriminate|].
  destruct (exists_last El) as (l1 & [t w] & E).
  assert (Lw : length ws = S (length l1)) by (unfold ws; rewrite map_length, E, app_length; cbn [length]; lia).
  assert (N1 : forall i t' w', nth_error l1 i = Some (t', w') -> nth_error l i = Some (t', w')) by (intros i t' w' H; rewrite E, nth_error_app1 by (eapply nth_lt; eauto); exact H).
  assert (Nl : nth_error l (length l1) = Some (t, w)) by (rewrite E, nth_error_app2, Nat.sub_diag by lia; reflexivity).
  destruct (prefix_ok s ws Hs B [(t, w)] l1 0) as (vs & Lv & Mv & Q).
  { cbn [length]. lia. } { intros i t' w' H. apply (widths_nth l i t'). apply N1. exact H. }
  { intros i t' w' H. apply (M i t' w'), N1, H. } { intros i Hi. apply (fits_next s ws Fi). cbn [plus]. lia. }
  cbn [plus] in *. rewrite <- E in Q. unfold parse_whole_width. change card_parse_begin with 0. change (Nat.min (start ws 0) (length s)) with 0 in Q. rewrite Q.
  destruct (M _ t w Nl) as (v & Mt). unfold field_of in Mt. pose proof (widths_nth l _ t w Nl) as Ew. fold ws in Ew. rewrite Ew, <- (field_min s (start ws (length l1))) in Mt.
  pose proof (start_S ws (length l1) ltac:(lia)) as St. rewrite Ew in St. rewrite <- Lw in St.
  assert (C : in_card s (Nat.min (start ws (length l1)) (length s)) (width w)) by (split; [exact Hs|split; lia]).
  destruct (one_means t s _ (width w) v C ltac:(lia) Mt) as (v' & O & M').
  unfold parse_from. cbn [fold_right]. rewrite parse_next_one, O. cbn [bind].
  assert (Nx : exists c, card_parse_next_width s (Nat.min (start ws (length l1)) (length s)) (width w) = OK c).
  { unfold card_parse_next_width. rewrite cget_nth0 by lia. cbn [bind]. destruct (negb _); [|eauto]. destruct (Nat.leb_spec (Nat.min (start ws (length l1)) (length s)) (255 - width w)); [eauto|lia]. }
  destruct Nx as (c & ->). cbn [bind]. exists (vs ++ [v']). split; [reflexivity|]. split; [rewrite app_length, E, app_length; cbn [length]; lia|].
  intros k t' w' H. destruct (Nat.lt_ge_cases k (length l1)) as [G|G].
  - rewrite nth_error_app1 by lia. apply (Mv k t' w'). rewrite E, nth_error_app1 in H by lia. exact H.
  - assert (k = length l1) as -> by (apply nth_lt in H; rewrite E, app_length in H; cbn [length] in H; lia).
    rewrite Nl in H. injection H as <- <-. exists v'. split; [rewrite nth_error_app2, Lv, Nat.sub_diag by lia; reflexivity|].
    unfold field_of. rewrite Ew, <- (field_min s (start ws (length l1))). exact M'.
Qed.

(** The same with ten columns for every field. *)
Theorem C68_default_partial : forall s l, fits s (map (fun _ => 10) l) ->
  (forall k t, nth_error l k = Some t -> exists v, means t (field s (10 * k) 10) v) ->
  exists vs, parse_whole Qarith s l = OK (Returns vs) /\ length vs = length l /\
    forall k t, nth_error l k = Some t -> exists v, nth_error vs k = Some v /\ means t (field s (10 * k) 10) v.
Proof.
  intros s l Fi M. rewrite parse_whole_default. set (l' := map (fun t => (t, 0)) l).
  assert (E : map snd l' = map (fun _ => 0) l) by (unfold l'; rewrite map_map; reflexivity).
  assert (Stz : forall k, start (map (fun _ => 0) l) k = start (map (fun _ => 10) l) k).
  { intros k. unfold start. rewrite !firstn_map, !map_map. reflexivity. }
  assert (Stt : forall k, k < length l -> start (map (fun _ => 10) l) k = 10 * k).
  { intros k. induction k as [|k IH]; intros H; [reflexivity|]. rewrite start_S by (rewrite map_length; lia). rewrite IH by lia.
    rewrite (nth_indep _ 0 10) by (rewrite map_length; lia). rewrite (map_nth (fun _ : vtype => 10) l TText k). cbn. lia. }
  assert (Fo : forall k, k < length l -> field_of s (map snd l') k = field s (10 * k) 10).
  { intros k H. rewrite E. unfold field_of. rewrite Stz, Stt by exact H. f_equal. rewrite (map_nth (fun _ : vtype => 0) l TText k). reflexivity. }
  assert (Fi' : fits s (map snd l')).
  { rewrite E. destruct Fi as (A1 & A2 & A3). unfold fits. rewrite !map_length in *. split; [exact A1|]. split; [rewrite Stz; exact A2|].
    destruct A3 as [(j & Lj & Ej)|A3]; [left; exists j; rewrite Stz; auto|right; rewrite Stz; exact A3]. }
  assert (N : forall k t w, nth_error l' k = Some (t, w) -> nth_error l k = Some t /\ k < length l).
  { intros k t w H. unfold l' in H. rewrite nth_error_map in H. destruct (nth_error l k) eqn:Q; [|discriminate]. cbn in H. injection H as -> _. split; [reflexivity|]. eapply nth_lt; eauto. }
  destruct (C68_whole_partial s l' Fi') as (vs & Q & Lv & Mv).
  { intros k t w H. destruct (N k t w H) as (H' & Lk). rewrite Fo by exact Lk. apply (M k t H'). }
  exists vs. split; [exact Q|]. split; [unfold l' in Lv; rewrite map_length in Lv; exact Lv|]. intros k t H. pose proof (nth_lt _ _ _ H) as Lk.
  rewrite <- (Fo k Lk). apply (Mv k t 0). unfold l'. rewrite nth_error_map, H. reflexivity.
Qed.

(** An integer that its type cannot represent, behind fields that can be
    read, throws. *)
Theorem C68_throws : forall s l k t w z, fits s (map snd l) -> nth_error l k = Some (TInt t, w) ->
  (forall i t w, i < k -> nth_error l i = Some (t, w) -> exists v, means t (field_of s (map snd l) i) v) ->
  int_text (field_of s (map snd l) k) z -> moderate z -> ~ in_range t z ->
  parse_whole_width Qarith s l = OK Throws.
Proof.
  intros s l k t w z Fi Nk M T Mo R. pose proof Fi as (Hs & B & _). set (ws := map snd l) in *. pose proof (nth_lt _ _ _ Nk) as Lk.
  assert (Lw : length ws = length l) by apply map_length.
  destruct (prefix_ok s ws Hs B ((TInt t, w) :: skipn (S k) l) (firstn k l) 0) as (vs & Lv & Mv & Q).
  { cbn [length]. rewrite firstn_length, skipn_length. lia. }
  { intros i t' w' H. apply nth_firstn_some in H as (_ & H). apply (widths_nth l i t'). exact H. }
  { intros i t' w' H. apply nth_firstn_some in H as (L & H). apply (M i t' w' L H). }
  { intros i Hi. rewrite firstn_length in Hi. apply (fits_next s ws Fi). cbn [plus]. lia. }
  cbn [plus] in *. rewrite <- (nth_split_at l k _ Nk) in Q. unfold parse_whole_width. change card_parse_begin with 0. change (Nat.min (start ws 0) (length s)) with 0 in Q. rewrite Q.
  rewrite firstn_length, (Nat.min_l k) by lia. unfold parse_from. cbn [fold_right]. rewrite parse_next_one.
  pose proof (start_S ws k ltac:(lia)) as St. pose proof (widths_nth l k _ w Nk) as Ew. fold ws in Ew. rewrite Ew in St. pose proof (start_mono ws (S k) (length ws) ltac:(lia)) as Sm.
  unfold field_of in T. rewrite Ew, <- (field_min s (start ws k)) in T.
  rewrite (one_throws t s (Nat.min (start ws k) (length s)) (width w) z); auto. split; [exact Hs|]. lia.
Qed.

(** What is missing: a card that ends inside of a field that is not the last
    one asked for.  Memory behind the card is read. *)
Theorem C68_short_card_refuted : forall s l k, ends_inside s (map snd l) k ->
  (forall i t w, i <= k -> nth_error l i = Some (t, w) -> exists v, means t (field_of s (map snd l) i) v) ->
  parse_whole_width Qarith s l = UB.
Proof.
  intros s l k (Hs & B & Lk & Lin) M. set (ws := map snd l) in *. assert (Lw : length ws = length l) by apply map_length.
  destruct (nth_error l k) as [[t w]|] eqn:Nk; [|apply nth_error_None in Nk; lia].
  destruct (nth_error l (S k)) as [[t2 w2]|] eqn:Nk2; [|apply nth_error_None in Nk2; lia].
  destruct (prefix_ok s ws Hs B ((t, w) :: skipn (S k) l) (firstn k l) 0) as (vs & Lv & Mv & Q).
  { cbn [length]. rewrite firstn_length, skipn_length. lia. }
  { intros i t' w' H. apply nth_firstn_some in H as (_ & H). apply (widths_nth l i t'). exact H. }
  { intros i t' w' H. apply nth_firstn_some in H as (L & H). apply (M i t' w' ltac:(lia) H). }
  { intros i Hi _. rewrite firstn_length in Hi. cbn [plus]. pose proof (start_mono ws (S i) k ltac:(lia)). lia. }
  cbn [plus] in *. rewrite <- (nth_split_at l k _ Nk) in Q. unfold parse_whole_width. change card_parse_begin with 0. change (Nat.min (start ws 0) (length s)) with 0 in Q. rewrite Q.
  rewrite firstn_length, (Nat.min_l k) by lia. rewrite Nat.min_l by lia.
  pose proof (start_S ws k ltac:(lia)) as St. pose proof (widths_nth l k _ w Nk) as Ew. fold ws in Ew. rewrite Ew in St. pose proof (start_mono ws (S k) (length ws) ltac:(lia)) as Sm.
  destruct (M k t w (le_n k) Nk) as (v & Mt). unfold field_of in Mt. rewrite Ew in Mt.
  assert (C : in_card s (start ws k) (width w)) by (split; [exact Hs|split; lia]).
  destruct (one_means t s _ (width w) v C ltac:(lia) Mt) as (v' & O & _).
  rewrite (nth_split_at (skipn (S k) l) 0 (t2, w2)).
  2:{ clear - Nk2. revert k Nk2. induction l as [|y l IH]; intros k Q; [discriminate|]. destruct k as [|k]; cbn [skipn nth_error] in *; [destruct l; exact Q|]. apply IH. exact Q. }
  cbn [firstn app]. unfold parse_from. cbn [fold_right]. rewrite parse_next_one, O. cbn [bind].
  unfold card_parse_next_width. rewrite cget_nth0 by lia. cbn [bind]. unfold NUL. pose proof (cstr_nth_range s (start ws k) Hs ltac:(lia)). destruct (Z.eqb_spec (nth (start ws k) s 0%Z) 0); [lia|]. cbn [negb].
  destruct (Nat.leb_spec (start ws k) (255 - width w)); [|lia]. cbn [bind]. rewrite parse_next_one. unfold one at 1. rewrite empty_past by (try apply width_pos; lia). reflexivity.
Qed.

Definition sample_card : cstr := bs "       7     1.5            abc       ".
Example C68_case : parse_whole_width Qarith sample_card [(TInt TI32, 8); (TFloat, 8); (TFloat, 8); (TText, 10)] = OK (Returns [VInt 7; VFloat (15 # 10 : F Qarith)%Q; VFloat (0%Z # 1 : F Qarith)%Q; VText (bs "abc")]) /\
  parse_whole_width Qarith sample_card [(TInt TI32, 8); (TFloat, 8); (TText, 24); (TText, 0)] = UB.
Proof. vm_compute. split; reflexivity. Qed.
Example C68_case_hyp : fits sample_card [8; 8; 8; 10] /\ ends_inside sample_card [8; 8; 24; 0] 2 /\
  means (TInt TI32) (field_of sample_card [8; 8; 8; 10] 0) (VInt 7) /\ means TFloat (field_of sample_card [8; 8; 8; 10] 2) (VFloat (inject_Z 0 : F Qarith)) /\
  means TText (field_of sample_card [8; 8; 8; 10] 3) (VText (bs "abc")).
Proof.
  assert (Cs : is_cstr sample_card) by (repeat constructor; simpl; lia).
  split; [split; [exact Cs|split; [vm_compute; lia|right; vm_compute; lia]]|]. split; [split; [exact Cs|vm_compute; lia]|]. split; [|split].
  - apply M_int; [|split; [discriminate|reflexivity]|split; reflexivity]. exists (bs "       "), [], (bs "7"), []. repeat split; [repeat constructor|repeat constructor; simpl; lia|left; reflexivity|]. left. repeat split. discriminate.
  - apply M_float_blank. vm_compute. repeat constructor.
  - apply M_text. exists (bs "    "), (bs "   "). split; [vm_compute; reflexivity|]. split; [vm_compute; repeat constructor|]. split; [vm_compute; repeat constructor|]. intros _; split; vm_compute; discriminate.
Qed.

(** ** C69: cards as objects *)

(** Any use of cards: a Card taken from a keyword is a view (all views of a
    card share its position), a copy is a card of its own.  The cards of the
    file stay intact; nothing is used after it was freed. *)
Theorem C69_cards_partial : forall file prog rs file' v', cvrun file [] prog rs file' v' ->
  exists s', crun (cstart file) prog = OK (s', rs) /\ firstn (length file) (cm_heap s') = map Some file'.
Proof.
  intros file prog rs file' v' R. destruct (crun_ok prog (cstart file) file [] rs file' v' (cinv0 file) R) as (s' & Q & (_ & Lh & F & _) & L & _).
  exists s'. split; [exact Q|]. rewrite <- L. clear - Lh F. revert file' Lh F. generalize (cm_heap s'). intros h file'. revert h.
  induction file' as [|x file' IH]; intros h Lh F; [reflexivity|]. destruct h as [|y h]; cbn [length] in Lh; [lia|]. cbn [firstn map].
  pose proof (F 0 x eq_refl) as E. injection E as ->. cbn [length firstn]. f_equal. apply IH; [lia|]. intros k z H. exact (F (S k) z H).
Qed.

(** When all cards are destroyed only the cards of the file remain, provided
    no assignment overwrote a copy. *)
Theorem C69_no_leak_partial : forall file prog rs file' v', cvrun file [] prog rs file' v' -> cno_overwrite file [] prog ->
  Forall (fun c => c = CGone) v' ->
  exists s', crun (cstart file) prog = OK (s', rs) /\ forall b x, nth_error (cm_heap s') b = Some (Some x) -> b < length file.
Proof.
  intros file prog rs file' v' R N G. destruct (crun_ok prog (cstart file) file [] rs file' v' (cinv0 file) R) as (s' & Q & (L1 & _ & _ & Rp & _) & L & C).
  exists s'. split; [exact Q|]. intros b x Nb. destruct (Nat.lt_ge_cases b (length file)) as [H|H]; [exact H|]. exfalso.
  destruct (C (ccovered0 file) N b x H Nb) as (j & o & Qo & Oo). destruct (nth_error v' j) as [w|] eqn:Ew; [|apply nth_error_None in Ew; apply nth_lt in Qo; lia].
  rewrite Forall_forall in G. pose proof (G w (nth_error_In _ _ Ew)) as ->. pose proof (Rp _ _ _ Qo Ew) as Z. cbn in Z. subst o. discriminate.
Qed.

(** What is missing: a card assigned to itself is undefined behaviour, using
    a card that was moved from too, and assigning to a card that owns a copy
    leaks it. *)
Theorem C69_self_assignment_refuted : forall x file, crun (cstart (x :: file)) [Of 0; CCopyTo 0 0] = UB.
Proof. reflexivity. Qed.
Theorem C69_moved_refuted : forall x file, crun (cstart (x :: file)) [Of 0; CMoveNew 0; CCopyNew 0] = UB /\
  (forall q, crun (cstart (x :: file)) [Of 0; CMoveNew 0; CAsk 0 q] = UB).
Proof. split; reflexivity. Qed.
Theorem C69_assignment_leaks_refuted : forall x, exists s,
  crun (cstart [x]) [Of 0; CCopyNew 0; CCopyTo 1 0; CDestroy 0; CDestroy 1] = OK (s, [CNothing; CNothing; CNothing; CNothing; CNothing]) /\
  nth_error (cm_heap s) 1 = Some (Some x).
Proof. intros x. eexists. split; reflexivity. Qed.

Example C69_case : exists s,
  crun (cstart [{| cd_string := bs "         1         2"; cd_width := 10; cd_index := 0 |}])
    [Of 0; Of 0; CCopyNew 0; CNext 0; CAsk 1 (fun s cur w => do o <- card_parse_int_width s cur w; OK match o with Some z => z | None => 0%Z end);
     CAsk 2 (fun s cur w => do o <- card_parse_int_width s cur w; OK match o with Some z => z | None => 0%Z end); CDestroy 2] =
  OK (s, [CNothing; CNothing; CNothing; CNothing; CAnswer 2; CAnswer 1; CNothing]).
Proof. eexists. vm_compute. reflexivity. Qed.
Example C69_case_hyp : exists rs file' v' x,
  cvrun [x] [] [Of 0; CCopyNew 0; CBegin 1 5; CMoveNew 1; CMoveTo 1 2; CDestroy 0; CDestroy 1; CDestroy 2] rs file' v' /\
  cno_overwrite [x] [] [Of 0; CCopyNew 0; CBegin 1 5; CMoveNew 1; CMoveTo 1 2; CDestroy 0; CDestroy 1; CDestroy 2] /\ Forall (fun c => c = CGone) v'.
Proof.
  set (x := {| cd_string := bs "ab"; cd_width := 10; cd_index := 0 |}). set (y := {| cd_string := bs "ab"; cd_width := 5; cd_index := 0 |}).
  assert (S1 : cvstep [x] [] (Of 0) CNothing [x] [CView 0]) by (apply (W_of [x] [] 0); cbn; lia).
  assert (S2 : cvstep [x] [CView 0] (CCopyNew 0) CNothing [x] [CView 0; COwn x]) by (apply (W_copy_new [x] [CView 0] 0 (CView 0) x); [split; [reflexivity|discriminate]|reflexivity]).
  assert (S3 : cvstep [x] [CView 0; COwn x] (CBegin 1 5) CNothing [x] [CView 0; COwn y]) by (apply (W_begin [x] [CView 0; COwn x] 1 5 (COwn x) x); [split; [reflexivity|discriminate]|reflexivity|reflexivity]).
  assert (S4 : cvstep [x] [CView 0; COwn y] (CMoveNew 1) CNothing [x] [CView 0; CMoved; COwn y]) by (apply (W_move_new [x] [CView 0; COwn y] 1 (COwn y)); split; [reflexivity|discriminate]).
  assert (S5 : cvstep [x] [CView 0; CMoved; COwn y] (CMoveTo 1 2) CNothing [x] [CView 0; COwn y; CMoved]) by (apply (W_move_to [x] [CView 0; CMoved; COwn y] 1 2 (COwn y) CMoved); [split; [reflexivity|discriminate]|split; [reflexivity|discriminate]|discriminate]).
  assert (S6 : cvstep [x] [CView 0; COwn y; CMoved] (CDestroy 0) CNothing [x] [CGone; COwn y; CMoved]) by (apply (W_destroy [x] [CView 0; COwn y; CMoved] 0 (CView 0)); split; [reflexivity|discriminate]).
  assert (S7 : cvstep [x] [CGone; COwn y; CMoved] (CDestroy 1) CNothing [x] [CGone; CGone; CMoved]) by (apply (W_destroy [x] [CGone; COwn y; CMoved] 1 (COwn y)); split; [reflexivity|discriminate]).
  assert (S8 : cvstep [x] [CGone; CGone; CMoved] (CDestroy 2) CNothing [x] [CGone; CGone; CGone]) by (apply (W_destroy [x] [CGone; CGone; CMoved] 2 CMoved); split; [reflexivity|discriminate]).
  eexists _, _, _, x. split; [|split].
  - repeat (eapply W_step; [eassumption|]). apply W_done.
  - repeat (eapply X_step; [|eassumption|]); try apply X_done.
    all: intros (i & j & z & [Q|Q] & N); try discriminate; injection Q as <- <-; discriminate.
  - repeat constructor.
Qed.

(** ** C70: looking up keywords *)

(** keywords[name]: iterating over the slice visits exactly the keywords of
    that name in their order, and an index gives the keyword or throws. *)
Theorem C70_slice_partial : forall pre run post name,
  names_sorted (map kw_name (pre ++ run ++ post)) -> is_cstr name ->
  (forall k, In k pre \/ In k post -> kw_name k <> name) -> (forall k, In k run -> kw_name k = name) -> run <> [] ->
  pre <> [] \/ length run = 1 -> (Z.of_nat (length run) <= 2 ^ 64)%Z ->
  exists sl, keywords_at (pre ++ run ++ post) name = OK (Returns sl) /\ slice_all (pre ++ run ++ post) sl = OK run /\
    forall i, slice_at (pre ++ run ++ post) sl i = OK (match nth_error run i with Some k => Returns k | None => Throws end).
Proof.
  intros pre run post name S Cn No Al Ne P B. exists (length pre, length run). unfold keywords_at. rewrite (c_str_id name Cn).
  rewrite !map_app in *. rewrite (C13_slice_partial (map kw_name pre) (map kw_name run) (map kw_name post) name S).
  - cbn [bind]. rewrite !map_length. split; [reflexivity|]. split.
    + destruct run as [|k run]; [congruence|]. cbn [length] in *. rewrite slice_all_ok by (rewrite ?app_length; cbn [length]; lia).
      rewrite skipn_app, skipn_all, Nat.sub_diag. cbn [skipn app]. change (Datatypes.S (length run)) with (length (k :: run)). rewrite app_comm_cons, firstn_app, firstn_all, Nat.sub_diag. cbn [firstn]. rewrite app_nil_r. reflexivity.
    + intros i. unfold slice_at. cbn [fst snd]. rewrite get_range. destruct (Nat.ltb_spec i (length run)) as [L|L]; cbn [negb].
      * destruct (nth_error run i) as [k|] eqn:Q; [|apply nth_error_None in Q; lia].
        rewrite (proj2 (aget_OK (pre ++ run ++ post) (length pre + i) k)); [reflexivity|]. rewrite nth_error_app2 by lia. replace (length pre + i - length pre) with i by lia. rewrite nth_error_app1 by lia. exact Q.
      * rewrite (proj2 (nth_error_None run i) L). reflexivity.
  - intros I. apply in_map_iff in I as (k & E & I). exact (No k (or_introl I) E).
  - apply Forall_forall. intros x I. apply in_map_iff in I as (k & <- & I). exact (Al k I).
  - intros I. apply in_map_iff in I as (k & E & I). exact (No k (or_intror I) E).
  - destruct run; [congruence|discriminate].
  - destruct P as [P|P]; [left; destruct pre; [congruence|discriminate]|right; rewrite map_length; exact P].
Qed.

(** An unknown name throws (the message has room for 990 characters). *)
Theorem C70_absent_partial : forall kws name, names_sorted (map kw_name kws) -> is_cstr name ->
  (forall k, In k kws -> kw_name k <> name) -> length name <= 990 -> keywords_at kws name = OK Throws.
Proof.
  intros kws name S Cn No L. unfold keywords_at. rewrite (c_str_id name Cn). rewrite C13_slice_absent; [|exact S|].
  - cbn [bind]. unfold throw_message. rewrite !app_length. change (length (bs "The keyword """)) with 13. change (length (bs """ could not be found")) with 20.
    destruct (Nat.leb_spec (13 + (length name + 20) + 1) 1024) as [|G]; [reflexivity|lia].
  - intros I. apply in_map_iff in I as (k & E & I). exact (No k I E).
Qed.

(** What is missing: a longer name overruns the message buffer; the first
    keywords of the table (finding of C13) lose one of their number. *)
Theorem C70_long_name_refuted : forall kws name, names_sorted (map kw_name kws) -> is_cstr name ->
  (forall k, In k kws -> kw_name k <> name) -> 990 < length name -> keywords_at kws name = UB.
Proof.
  intros kws name S Cn No L. unfold keywords_at. rewrite (c_str_id name Cn). rewrite C13_slice_absent; [|exact S|].
  - cbn [bind]. unfold throw_message. rewrite !app_length. change (length (bs "The keyword """)) with 13. change (length (bs """ could not be found")) with 20.
    destruct (Nat.leb_spec (13 + (length name + 20) + 1) 1024) as [|G]; [lia|reflexivity].
  - intros I. apply in_map_iff in I as (k & E & I). exact (No k I E).
Qed.
(** The name of a std::string ends at its first NUL. *)
Theorem C70_name_ends_at_nul : forall kws name rest, is_cstr name -> keywords_at kws (name ++ NUL :: rest) = keywords_at kws name.
Proof.
  intros kws name rest C. unfold keywords_at. rewrite (c_str_id name C). replace (c_str (name ++ NUL :: rest)) with name; [reflexivity|].
  revert C. unfold is_cstr. induction name as [|c t IH]; intros C; cbn [app c_str]; [reflexivity|]. inversion C; subst. destruct (Z.eqb_spec c NUL) as [-> |N]; [unfold NUL in *; lia|]. f_equal. auto.
Qed.
Theorem C70_first_refuted : forall c1 c2,
  let a := {| kw_name := bs "A"; kw_cards := c1 |} in let b := {| kw_name := bs "A"; kw_cards := c2 |} in
  let z := {| kw_name := bs "Z"; kw_cards := [] |} in
  (do r <- keywords_at [a; b; z] (bs "A"); match r with Returns sl => slice_all [a; b; z] sl | Throws => OK [] end) = OK [b].
Proof. intros c1 c2. reflexivity. Qed.

(** The cards of a keyword. *)
Theorem C70_cards : forall k, cards_all k = OK (kw_cards k) /\
  forall i, keyword_at k i = OK (match nth_error (kw_cards k) i with Some c => Returns c | None => Throws end).
Proof.
  intros k. split; [unfold cards_all; rewrite (cards_walk_ok k (length (kw_cards k))) by lia; reflexivity|].
  intros i. unfold keyword_at. rewrite get_range. destruct (Nat.ltb_spec i (length (kw_cards k))) as [L|L]; cbn [negb].
  - destruct (nth_error (kw_cards k) i) as [c|] eqn:Q; [|apply nth_error_None in Q; lia]. rewrite (proj2 (aget_OK _ _ _) Q). reflexivity.
  - rewrite (proj2 (nth_error_None _ i) L). reflexivity.
Qed.

(** A slice made for no keywords (the constructor is public) runs past the
    table. *)
Theorem C70_empty_slice_refuted : forall kws p, p <= length kws -> (Z.of_nat (length kws) < 2 ^ 64)%Z -> slice_all kws (p, 0) = UB.
Proof.
  intros kws p L B. unfold slice_all, slice_begin. cbn [fst snd]. change (u64 (Z.of_nat 0 - 1)) with (2 ^ 64 - 1)%Z.
  apply (slice_walk_over kws (length kws - p)); lia.
Qed.

Example C70_case : let k := fun (n : string) c => {| kw_name := bs n; kw_cards := c |} in
  let kws := [k "A"%string []; k "B"%string [bs "x"]; k "B"%string [bs "y"]; k "C"%string []] in
  (do r <- keywords_at kws (bs "B"); match r with Returns sl => slice_all kws sl | Throws => OK [] end) = OK [k "B"%string [bs "x"]; k "B"%string [bs "y"]] /\
  keywords_at kws (bs "D") = OK Throws /\ names_sorted (map kw_name kws).
Proof. split; [reflexivity|]. split; [reflexivity|]. apply sortedb_sound. reflexivity. Qed.

Print Assumptions C67_int_partial.
Print Assumptions C67_in_range.
Print Assumptions C67_no_integer_refuted.
Print Assumptions C68_whole_partial.
Print Assumptions C68_default_partial.
Print Assumptions C68_throws.
Print Assumptions C68_short_card_refuted.
Print Assumptions C69_cards_partial.
Print Assumptions C69_no_leak_partial.
Print Assumptions C69_self_assignment_refuted.
Print Assumptions C69_moved_refuted.
Print Assumptions C69_assignment_leaks_refuted.
Print Assumptions C70_slice_partial.
Print Assumptions C70_absent_partial.
Print Assumptions C70_long_name_refuted.
Print Assumptions C70_name_ends_at_nul.
Print Assumptions C70_first_refuted.
Print Assumptions C70_cards.
Print Assumptions C70_empty_slice_refuted.
