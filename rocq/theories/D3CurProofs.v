(** * The cursor over a sound family *)
From Verif Require Import CBase CBaseFacts BinModel D3BufModel D3BufSpec D3BufProofs D3Model D3Spec.
Open Scope Z_scope.

Section Cursor.
Context (b : dbuf) (So : sound_family b) (Al : aligned b) (Er : d_err b = None) (By : bytes_ok b).

Definition live (c : dbuf * dptr) (pos : Z) : Prop := fst c = b /\ stands_at b (snd c) (pos * d_ws b) /\ cw c = pos /\ 0 <= pos.
Definition dead (c : dbuf * dptr) : Prop := exists e, c = (set_err b e, closed).
(** The cursor after skipping to [pos]. *)
Definition reach (c : dbuf * dptr) (pos : Z) : Prop := (below b pos -> live c pos) /\ (~ below b pos -> dead c) /\ 0 <= pos.

Lemma ws_pos : 0 < d_ws b <= 8.
Proof. apply sound_ws. exact So. Qed.
Lemma tot : total b < 2 ^ 63.
Proof. apply So. Qed.
Lemma below_dec pos : below b pos \/ ~ below b pos.
Proof. unfold below. lia. Qed.
Lemma live_err c pos : live c pos -> err c = false.
Proof. intros (E & _). unfold err. rewrite E, Er. reflexivity. Qed.
Lemma dead_err c : dead c -> err c = true.
Proof. intros (e & ->). reflexivity. Qed.
Lemma live_ws c pos : live c pos -> d_ws (fst c) = d_ws b.
Proof. intros (E & _). rewrite E. reflexivity. Qed.
Lemma live_bound c pos : live c pos -> 0 <= pos * d_ws b <= total b /\ pos < 2 ^ 61.
Proof. intros (_ & A & _ & P). pose proof (stands_total _ _ _ So A). pose proof ws_pos. pose proof tot. destruct So as (_ & _ & [W|W]); rewrite W in *; nia. Qed.

(** A read leaves the pointer in the file the last byte was read from. *)
Lemma next_file_zero b0 p b' p' : next_file b0 p = OK (b', p', true) -> p_pos p' = 0.
Proof.
  unfold next_file. destruct (cur_file b0 p) as [[i f]| |]; cbn [bind]; try discriminate. destruct (pointer_close _ _); cbn [bind]; try discriminate.
  destruct (_ =? _)%nat; [intros [= <- <-]|]. destruct (aget _ _) as [g| |]; cbn [bind]; try discriminate. destruct (f_ok g); intros [= <- <-]. reflexivity.
Qed.
Lemma fread_len data pos n d c : fread_items data pos 1 n = (d, c) -> c = zlen d.
Proof. unfold fread_items. intros [= <- <-]. rewrite Z.div_1_r. reflexivity. Qed.
Lemma read_loop_pos : forall fuel b0 p num acc b' p' d, read_loop fuel b0 p num acc = OK (b', p', d) -> d_err b' = None -> zlen acc < num -> 0 <= p_pos p -> 0 < p_pos p'.
Proof.
  induction fuel as [|fuel IH]; intros b0 p num acc b' p' d; cbn [read_loop]; [discriminate|].
  fold (zlen acc). intros Q E L P. destruct (Z.ltb_spec (zlen acc) num); [|lia].
  destruct (cur_file b0 p) as [[i f]| |]; cbn [bind] in Q; try discriminate.
  destruct (Z.leb_spec (num - zlen acc) (u64 (f_size f - p_pos p))) as [Le|Gt].
  - destruct (fread_items _ _ _ _) as [x c] eqn:Fr. apply fread_len in Fr. destruct (Z.eqb_spec c (num - zlen acc)) as [Ec|Ec].
    + injection Q as <- <- <-. cbn [p_pos]. unfold zlen in *. lia.
    + injection Q as <- <- <-. discriminate.
  - destruct (if u64 (f_size f - p_pos p) =? 0 then _ else _) as [x c] eqn:Fr.
    assert (Lc : c = zlen x). { destruct (u64 (f_size f - p_pos p) =? 0); [injection Fr as <- <-; reflexivity|eapply fread_len; eauto]. }
    destruct (Z.eqb_spec c (u64 (f_size f - p_pos p))) as [Ec|Ec]; [|injection Q as <- <- <-; discriminate].
    destruct (next_file _ _) as [[[b1 p1] k]| |] eqn:Nf; cbn [bind] in Q; try discriminate.
    destruct k.
    + apply next_file_zero in Nf. eapply (IH _ _ _ _ _ _ _ Q E); [rewrite zlen_app; lia|lia].
    + destruct (d_err b1); injection Q as <- <- <-; discriminate.
Qed.
Lemma read_words_pos b0 p n b' p' d : read_words b0 p n = OK (b', p', d) -> d_err b' = None -> 0 < n -> 0 < d_ws b0 -> n * d_ws b0 < 2 ^ 64 -> 0 <= p_pos p -> 0 < p_pos p'.
Proof.
  unfold read_words. destruct (cur_file b0 p) as [[i f]| |]; cbn [bind]; try discriminate. intros Q E N W B P.
  destruct (_ <=? _).
  - unfold fread_items in Q. destruct (Z.eqb_spec (Z.of_nat (length (firstn (Z.to_nat (d_ws b0 * n)) (skipn (Z.to_nat (p_pos p)) (f_bytes f)))) / d_ws b0) n) as [Ec|Ec].
    + injection Q as <- <- <-. cbn [p_pos]. assert (0 <> Z.of_nat (length (firstn (Z.to_nat (d_ws b0 * n)) (skipn (Z.to_nat (p_pos p)) (f_bytes f))))); [|lia].
      intros X. rewrite <- X in Ec. rewrite Z.div_0_l in Ec by lia. lia.
    + injection Q as <- <- <-. discriminate.
  - rewrite u64_id in Q by nia. eapply (read_loop_pos _ _ _ _ _ _ _ _ Q E); [change (zlen []) with 0; nia|exact P].
Qed.

Lemma word_live c pos : live c pos -> has b pos -> exists c', word c = OK (c', wd b pos) /\ live c' (pos + 1) /\ 0 < p_pos (snd c').
Proof.
  intros L (_ & H). pose proof (live_bound _ _ L) as (_ & Pb). destruct L as (E & A & W & P). destruct c as [b0 p]. cbn [fst snd] in *. subst b0. unfold cw in W. cbn [snd] in W.
  destruct (read_in b p (pos * d_ws b) 1 pos So A) as (p' & w' & Q & A' & Pw & Dw); [lia|lia|rewrite W, u64_id by lia; reflexivity|].
  unfold word. cbn [fst snd]. rewrite Q. cbn [bind]. exists (b, p'). rewrite Z.mul_1_l. split; [reflexivity|]. split.
  - split; [reflexivity|]. cbn [fst snd]. split; [replace ((pos + 1) * d_ws b) with (pos * d_ws b + 1 * d_ws b) by ring; exact A'|].
    unfold cw. cbn [snd]. rewrite Pw, (Dw Al) by apply Z.divide_factor_r. split; [apply u64_id; lia|lia].
  - cbn [snd]. pose proof ws_pos. eapply (read_words_pos _ _ _ _ _ _ Q); auto; try lia. destruct A as (pre & f & post & _ & _ & Pp & _). lia.
Qed.
Lemma word_out c pos : live c pos -> ~ has b pos -> exists c' v, word c = OK (c', v) /\ dead c'.
Proof.
  intros (E & A & W & P) H. destruct c as [b0 p]. cbn [fst snd] in *. subst b0. pose proof ws_pos.
  unfold word. cbn [fst snd]. rewrite (read_out b p (pos * d_ws b) 1 So Er A) by (unfold has in H; lia). cbn [bind].
  eexists _, _. split; [reflexivity|]. exists E_too_much. reflexivity.
Qed.
Lemma word_dead c : dead c -> word c = UB.
Proof. intros (e & ->). reflexivity. Qed.

Lemma skip_live c pos n : live c pos -> 0 <= n -> (pos + n) * d_ws b < 2 ^ 64 -> exists c', skip c n = OK c' /\ reach c' (pos + n).
Proof.
  intros (E & A & W & P) N B. destruct c as [b0 p]. cbn [fst snd] in *. subst b0. unfold cw in W. cbn [snd] in W. pose proof ws_pos.
  unfold skip. cbn [fst snd]. destruct (below_dec (pos + n)) as [In|Out].
  - destruct (skip_in b p pos n So A W P N In) as (p' & Q & A' & Pw). rewrite Q. exists (b, p'). split; [reflexivity|].
    split; [intros _; repeat split; auto; lia|]. split; [intros X; contradiction|lia].
  - destruct (skip_out b p pos n So A W P) as (e & Q); [nia|unfold below in Out; lia|lia|]. rewrite Q. eexists. split; [reflexivity|].
    split; [intros X; contradiction|]. split; [intros _; exists e; reflexivity|lia].
Qed.
Lemma skip_dead c n : dead c -> 0 <= n < 2 ^ 64 -> exists c', skip c n = OK c' /\ dead c'.
Proof.
  intros (e & ->) N. unfold skip, skip_words, ULONG_MAX. cbn [fst snd closed p_word p_file]. rewrite u64_id by lia. unfold ULONG_MAX.
  assert ((2 ^ 64 - 1 - n <=? 2 ^ 64 - 1) = true) as -> by lia. eexists. split; [reflexivity|]. exists E_bounds. reflexivity.
Qed.
Lemma skip_reach c pos n : reach c pos -> 0 <= n -> (pos + n) * d_ws b < 2 ^ 64 -> exists c', skip c n = OK c' /\ reach c' (pos + n).
Proof.
  intros (L & D & P) N B. pose proof ws_pos. destruct (below_dec pos) as [In|Out].
  - apply skip_live; auto.
  - destruct (skip_dead c n (D Out)) as (c' & Q & D'); [nia|]. exists c'. split; [exact Q|].
    split; [intros X; exfalso; unfold below in *; nia|]. split; [auto|lia].
Qed.
Lemma skips_reach : forall ns c pos, reach c pos -> Forall (fun n => 0 <= n) ns -> (pos + sum ns) * d_ws b < 2 ^ 64 -> exists c', skips c ns = OK c' /\ reach c' (pos + sum ns).
Proof.
  pose proof ws_pos. induction ns as [|n r IH]; intros c pos Rc F B; cbn [skips sum] in *.
  - exists c. rewrite Z.add_0_r. auto.
  - inversion F as [|? ? F1 F2]; subst. assert (0 <= sum r) by (clear - F2; induction F2; cbn; lia).
    destruct (skip_reach c pos n Rc F1) as (c1 & Q & R1); [nia|]. rewrite Q. cbn [bind].
    destruct (IH c1 (pos + n) R1 F2) as (c2 & Q2 & R2); [nia|]. exists c2. rewrite Z.add_assoc. auto.
Qed.
Lemma skips_live ns c pos : live c pos -> ns <> [] -> Forall (fun n => 0 <= n) ns -> (pos + sum ns) * d_ws b < 2 ^ 64 -> exists c', skips c ns = OK c' /\ reach c' (pos + sum ns).
Proof.
  intros L Ne F B. destruct ns as [|n r]; [congruence|]. inversion F as [|? ? F1 F2]; subst. cbn [skips sum] in *. pose proof ws_pos.
  assert (0 <= sum r) by (clear - F2; induction F2; cbn; lia). assert (0 <= pos) by apply L.
  destruct (skip_live c pos n L F1) as (c1 & Q & R1); [nia|]. rewrite Q. cbn [bind].
  destruct (skips_reach r c1 (pos + n) R1 F2) as (c2 & Q2 & R2); [nia|]. exists c2. rewrite Z.add_assoc. auto.
Qed.
Lemma reach_live c pos : reach c pos -> below b pos -> live c pos.
Proof. intros (A & _). auto. Qed.
Lemma reach_err c pos : reach c pos -> err c = true <-> ~ below b pos.
Proof.
  intros (A & B & _). destruct (below_dec pos) as [In|Out].
  - rewrite (live_err _ _ (A In)). split; [discriminate|intros X; contradiction].
  - rewrite (dead_err _ (B Out)). split; auto.
Qed.

(** Words are words. *)
Lemma le_value_bound l : Forall (fun x => 0 <= x < 256) l -> 0 <= le_value l < 256 ^ Z.of_nat (length l).
Proof.
  induction 1 as [|x l H F IH]; cbn [le_value length]; [lia|]. rewrite Nat2Z.inj_succ, Z.pow_succ_r by lia. nia.
Qed.
Lemma Forall_firstn {A} (P : A -> Prop) n l : Forall P l -> Forall P (firstn n l).
Proof. revert n. induction l as [|x l IH]; intros [|n] F; cbn; auto. inversion F; subst. constructor; auto. Qed.
Lemma Forall_skipn {A} (P : A -> Prop) n l : Forall P l -> Forall P (skipn n l).
Proof. revert n. induction l as [|x l IH]; intros [|n] F; cbn; auto. inversion F; subst. auto. Qed.
Lemma wd_bound i : 0 <= wd b i < 256 ^ d_ws b.
Proof.
  unfold wd, word_at, bytes_from. pose proof ws_pos.
  assert (F : Forall (fun x => 0 <= x < 256) (firstn (Z.to_nat (d_ws b)) (skipn (Z.to_nat (i * d_ws b)) (all_bytes b)))) by (apply Forall_firstn, Forall_skipn; exact By).
  pose proof (le_value_bound _ F). split; [lia|]. eapply Z.lt_le_trans; [apply H0|]. apply Z.pow_le_mono_r; [lia|]. rewrite firstn_length. lia.
Qed.
Lemma wd_u64 i : 0 <= wd b i < 2 ^ 64.
Proof. pose proof (wd_bound i). destruct So as (_ & _ & [W|W]); rewrite W in *; lia. Qed.

(** Going on to the next file. *)
Lemma next_file_live c pos q more : live c (pos + 1) -> 0 < p_pos (snd c) -> file_end b pos q more ->
  exists c', next_file (fst c) (snd c) = OK (fst c', snd c', more) /\ fst c' = b /\ (more = true -> live c' q) /\ (more = false -> snd c' = closed).
Proof.
  intros (E & A & W & P) Pp (pre & f & post & Ef & In & Eq & Em). destruct c as [b0 p]. unfold cw in W. cbn [fst snd] in *. subst b0.
  destruct A as (pre' & f' & post' & Ef' & Pf & Pq & Pos). pose proof ws_pos as Ws. pose proof tot as T.
  pose proof (split_total b pre f post Ef) as St. pose proof (good_in b pre f post So Ef) as (Gs & Gk).
  pose proof (split_total b pre' f' post' Ef') as St'. pose proof (good_in b pre' f' post' So Ef') as (Gs' & Gk').
  fold (zlen (f_bytes f)) in Gs. fold (zlen (f_bytes f')) in Gs'. fold (zlen (concat (map f_bytes pre))) in In, Eq. fold (before pre) in In, Eq. fold (zlen (concat (map f_bytes pre'))) in Pos. fold (before pre') in Pos.
  assert (Dv : forall l r, d_files b = l ++ r -> (d_ws b | before l)).
  { clear - Al So. intros l r E. unfold aligned in Al. destruct So as (F & _). rewrite E in Al, F. apply Forall_app in Al as (Al' & _). apply Forall_app in F as (F' & _). unfold before.
    clear E. induction l as [|x l IH]; [apply Z.divide_0_r|]. inversion Al'; inversion F' as [|? ? (F1 & _) F2]; subst. cbn. rewrite zlen_app. apply Z.divide_add_r; auto. unfold zlen. rewrite <- F1. assumption. }
  assert (Dp : (d_ws b | before pre)) by (eapply Dv; eauto). assert (Dp' : (d_ws b | before pre')) by (eapply Dv; eauto).
  assert (Dq : (d_ws b | p_pos p)). { replace (p_pos p) with ((pos + 1) * d_ws b - before pre') by lia. apply Z.divide_sub_r; [apply Z.divide_factor_r|exact Dp']. }
  destruct Dp as (k & Hk). destruct Dp' as (k' & Hk'). destruct Dq as (j & Hj).
  assert (Pw1 : d_ws b <= p_pos p) by (rewrite Hj in Pp |- *; assert (0 < j) by nia; nia). assert (Pw2 : (pos + 1) * d_ws b = pos * d_ws b + d_ws b) by ring.
  (* both descriptions name the same file *)
  assert (Same : pre = pre' /\ f = f' /\ post = post').
  { assert (L : length pre = length pre').
    { assert (Mono : forall p1 g1 r1 p2 r2, d_files b = p1 ++ g1 :: r1 -> d_files b = p2 ++ r2 -> (length p1 < length p2)%nat -> before p1 + zlen (f_bytes g1) <= before p2).
      { intros p1 g1 r1 p2 r2 E1 E2 Lt. rewrite E1 in E2. assert (exists m, p2 = p1 ++ g1 :: m) as (m & ->).
        { clear - E2 Lt. revert p2 E2 Lt. induction p1 as [|x p1 IH]; intros p2 E2 Lt; (destruct p2 as [|y p2]; [cbn in Lt; lia|]).
          - injection E2 as <- _. exists p2. reflexivity.
          - injection E2 as <- E2. cbn in Lt. destruct (IH p2 E2) as (m & ->); [lia|]. exists m. reflexivity. }
        unfold before. rewrite map_app, concat_app, zlen_app. cbn. rewrite zlen_app. unfold zlen. lia. }
      destruct (Nat.lt_trichotomy (length pre) (length pre')) as [X|[X|X]]; [exfalso|exact X|exfalso].
      - pose proof (Mono _ _ _ _ _ Ef Ef' X). lia.
      - pose proof (Mono _ _ _ _ _ Ef' Ef X). lia. }
    rewrite Ef in Ef'. clear - Ef' L. revert pre' Ef' L. induction pre as [|x pre IH]; intros [|y pre'] Ef' L; try discriminate L.
    - injection Ef' as <- <-. auto.
    - injection Ef' as <- Ef'. injection L as L. destruct (IH pre' Ef' L) as (-> & -> & ->). auto. }
  destruct Same as (<- & <- & <-). clear Ef' Gs' Gk' St'.
  unfold next_file, cur_file, pointer_close, cur_file. rewrite Pf.
  assert (G : aget (d_files b) (length pre) = OK f) by (apply aget_OK; rewrite Ef, nth_error_app2, Nat.sub_diag by lia; reflexivity). rewrite G. cbn [bind].
  assert (Len : length (d_files b) = (length pre + 1 + length post)%nat) by (rewrite Ef, app_length; cbn; lia).
  assert (Df : (d_ws b | f_size f)). { unfold aligned in Al. rewrite Ef in Al. apply Forall_app in Al as (_ & Al'). inversion Al'; assumption. } destruct Df as (m & Hm).
  destruct post as [|g post].
  - cbn in Len. replace (length pre + 1 =? length (d_files b))%nat with true by (symmetry; apply Nat.eqb_eq; lia).
    exists (b, closed). cbn [fst snd]. subst more. split; [reflexivity|]. split; [reflexivity|]. split; [discriminate|reflexivity].
  - cbn in Len. replace (length pre + 1 =? length (d_files b))%nat with false by (symmetry; apply Nat.eqb_neq; lia).
    assert (E2 : d_files b = (pre ++ [f]) ++ g :: post) by (rewrite Ef, <- app_assoc; reflexivity). pose proof (good_in b _ g post So E2) as (Ggs & Ggk).
    assert (G2 : aget (d_files b) (length pre + 1) = OK g).
    { apply aget_OK. rewrite E2, nth_error_app2 by (rewrite app_length; cbn; lia). rewrite app_length. cbn [length]. rewrite Nat.sub_diag. reflexivity. }
    rewrite G2. cbn [bind]. rewrite Ggk. subst more. eexists (_, _). split; [reflexivity|]. split; [reflexivity|]. split; [|discriminate]. intros _.
    split; [reflexivity|]. cbn [snd]. assert (0 <= q) by nia. split; [|split; [|lia]].
    + exists (pre ++ [f]), g, post. cbn [p_file p_pos]. rewrite app_length. cbn [length]. split; [exact E2|]. split; [reflexivity|]. split; [rewrite Ggs; lia|].
      fold (zlen (concat (map f_bytes (pre ++ [f])))). fold (before (pre ++ [f])). rewrite before_app by (split; assumption). lia.
    + unfold cw. cbn [snd p_word]. rewrite W. rewrite (u64_id (f_size f - p_pos p)) by (unfold before, zlen in *; lia).
      rewrite Hm, Hj. replace (m * d_ws b - j * d_ws b) with ((m - j) * d_ws b) by ring. rewrite Z.div_mul by lia. assert (pos + 1 + (m - j) = q) as -> by nia. apply u64_id.
      destruct So as (_ & _ & [X|X]); rewrite X in *; unfold before, zlen in *; nia.
Qed.
End Cursor.
