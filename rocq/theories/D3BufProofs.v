From Verif Require Import CBase CBaseFacts BinModel D3BufModel D3BufSpec.
Local Open Scope Z_scope.

Lemma u64_id z : 0 <= z < 2 ^ 64 -> u64 z = z.
Proof. intros. unfold u64. apply Z.mod_small. lia. Qed.
Lemma u64_u64 a c : u64 (u64 a + c) = u64 (a + c).
Proof. unfold u64. rewrite Zplus_mod_idemp_l. reflexivity. Qed.

Definition zlen (l : list Z) : Z := Z.of_nat (length l).
Definition before (pre : list dfile) : Z := zlen (concat (map f_bytes pre)).
Definition good_file (f : dfile) : Prop := f_size f = Z.of_nat (length (f_bytes f)) /\ f_ok f = true.

Lemma zlen_app a c : zlen (a ++ c) = zlen a + zlen c.
Proof. unfold zlen. rewrite app_length. lia. Qed.
Lemma before_app pre f : good_file f -> before (pre ++ [f]) = before pre + f_size f.
Proof. intros (E & _). unfold before. rewrite map_app, concat_app. cbn. rewrite app_nil_r, zlen_app, E. reflexivity. Qed.
Lemma split_total b pre f post : d_files b = pre ++ f :: post -> total b = before pre + zlen (f_bytes f) + zlen (concat (map f_bytes post)).
Proof. intros E. unfold total, all_bytes, before. rewrite E, map_app, concat_app. cbn. fold (zlen (concat (map f_bytes pre) ++ f_bytes f ++ concat (map f_bytes post))). rewrite !zlen_app. lia. Qed.
Lemma good_in b pre f post : sound_family b -> d_files b = pre ++ f :: post -> good_file f.
Proof. intros (F & _) E. rewrite E in F. apply Forall_app in F as (_ & F). inversion F; subst. assumption. Qed.

(** What is left of the stream behind a pointer. *)
Lemma rest_at b pre f post pos : d_files b = pre ++ f :: post -> 0 <= pos <= zlen (f_bytes f) ->
  skipn (Z.to_nat (before pre + pos)) (all_bytes b) = skipn (Z.to_nat pos) (f_bytes f) ++ concat (map f_bytes post).
Proof.
  intros E P. unfold all_bytes. rewrite E, map_app, concat_app. cbn [map concat]. unfold before, zlen in *.
  rewrite skipn_app, skipn_all2 by lia. cbn [app]. rewrite skipn_app.
  replace (Z.to_nat (Z.of_nat (length (concat (map f_bytes pre))) + pos) - length (concat (map f_bytes pre)))%nat with (Z.to_nat pos) by lia.
  f_equal. replace (Z.to_nat pos - length (f_bytes f))%nat with 0%nat by lia. reflexivity.
Qed.

Lemma locate_spec : forall files i pos, Forall good_file files -> 0 <= pos < zlen (concat (map f_bytes files)) ->
  exists pre f post q, files = pre ++ f :: post /\ locate files i pos = Some ((i + length pre)%nat, q) /\ pos = before pre + q /\ 0 <= q < f_size f.
Proof.
  induction files as [|f r IH]; intros i pos F P; cbn in P |- *; [unfold zlen in P; cbn in P; lia|].
  inversion F as [|? ? (F1 & F1') F2]; subst. rewrite zlen_app in P. fold (zlen (f_bytes f)) in F1.
  destruct (Z.ltb_spec pos (f_size f)).
  - exists [], f, r, pos. cbn. rewrite Nat.add_0_r. unfold before, zlen. cbn. repeat split; auto; lia.
  - destruct (IH (i + 1)%nat (pos - f_size f) F2) as (pre & g & post & q & A & B & C & D); [lia|].
    exists (f :: pre), g, post, q. rewrite B. cbn [app length]. unfold before in *. cbn. rewrite zlen_app. split; [rewrite A; reflexivity|]. split; [f_equal; f_equal; lia|]. split; lia.
Qed.
Lemma locate_none : forall files i pos, Forall good_file files -> zlen (concat (map f_bytes files)) <= pos -> locate files i pos = None.
Proof.
  induction files as [|f r IH]; intros i pos F P; cbn in P |- *; [reflexivity|].
  inversion F as [|? ? (F1 & F1') F2]; subst. rewrite zlen_app in P. fold (zlen (f_bytes f)) in F1.
  destruct (Z.ltb_spec pos (f_size f)); [unfold zlen in *; lia|]. apply IH; auto. lia.
Qed.

Lemma sound_ws b : sound_family b -> 0 < d_ws b <= 8.
Proof. intros (_ & _ & [E|E]); lia. Qed.

Lemma seek_in b w : sound_family b -> 0 <= w -> w * d_ws b < total b ->
  exists p, seek b w = OK (b, p) /\ stands_at b p (w * d_ws b) /\ p_word p = w.
Proof.
  intros S W P. pose proof (sound_ws b S). destruct S as (F & T & _).
  unfold seek. rewrite u64_id by lia.
  destruct (locate_spec (d_files b) 0 (w * d_ws b)) as (pre & f & post & q & A & B & C & D); [exact F|unfold total, all_bytes in P; unfold zlen; lia|].
  rewrite B. cbn [Nat.add]. assert (G : aget (d_files b) (length pre) = OK f) by (apply aget_OK; rewrite A, nth_error_app2, Nat.sub_diag by lia; reflexivity).
  rewrite G. cbn [bind]. assert (Gf : good_file f) by (rewrite A in F; apply Forall_app in F as (_ & F); inversion F; assumption).
  destruct Gf as (Gs & ->). pose proof (split_total b pre f post A) as St.
  assert (Q : s64 q = q). { unfold s64, before, zlen in *. rewrite Z.mod_small by lia. destruct (Z.ltb_spec q (2 ^ 63)); lia. }
  rewrite Q. unfold fseek_to. assert (L : (0 <=? q) && (q <? 2 ^ 63) = true) by (unfold before, zlen in *; lia). rewrite L.
  eexists. split; [reflexivity|]. split; [|reflexivity]. exists pre, f, post. cbn. unfold before, zlen in *. repeat split; auto; lia.
Qed.
Lemma seek_out b w : sound_family b -> 0 <= w -> total b <= w * d_ws b < 2 ^ 64 -> seek b w = OK (set_err b E_oob, closed).
Proof.
  intros (F & _) W P. unfold seek. rewrite u64_id by (unfold total in P; lia). rewrite locate_none; [reflexivity|exact F|unfold total, all_bytes in P; unfold zlen; lia].
Qed.

(** Moving on to the next file. *)
Lemma next_file_spec b p pre f post w : sound_family b -> d_files b = pre ++ f :: post -> p_file p = Some (length pre) -> p_pos p = f_size f -> p_word p = u64 w ->
  match post with
  | [] => next_file b p = OK (b, closed, false)
  | g :: post' => next_file b p = OK (b, {| p_file := Some (length (pre ++ [f])); p_word := u64 w; p_pos := 0 |}, true)
  end.
Proof.
  intros S E Pf Pp Pw. unfold next_file, cur_file, pointer_close, cur_file. rewrite Pf.
  assert (G : aget (d_files b) (length pre) = OK f) by (apply aget_OK; rewrite E, nth_error_app2, Nat.sub_diag by lia; reflexivity).
  rewrite G. cbn [bind]. rewrite Pp, Z.sub_diag, Pw. replace (u64 0 / d_ws b) with 0 by (unfold u64; rewrite Z.mod_0_l, Z.div_0_l; pose proof (sound_ws b S); lia).
  rewrite u64_u64, Z.add_0_r. rewrite E, app_length. cbn [length].
  destruct post as [|g post'].
  - cbn [length]. rewrite Nat.eqb_refl. reflexivity.
  - cbn [length]. assert ((length pre + 1 =? length pre + Datatypes.S (Datatypes.S (length post')))%nat = false) as -> by (apply Nat.eqb_neq; lia).
    assert (Gg : aget (pre ++ f :: g :: post') (length pre + 1) = OK g).
    { apply aget_OK. rewrite nth_error_app2 by lia. replace (length pre + 1 - length pre)%nat with 1%nat by lia. reflexivity. }
    rewrite Gg. cbn [bind]. assert (Q : good_file g) by (apply (good_in b (pre ++ [f]) g post' S); rewrite E, <- app_assoc; reflexivity). destruct Q as (_ & ->).
    rewrite app_length. reflexivity.
Qed.

Lemma fread_one data pos n : 0 <= pos -> 0 <= n -> pos + n <= zlen data ->
  fread_items data pos 1 n = (firstn (Z.to_nat n) (skipn (Z.to_nat pos) data), n).
Proof.
  intros P N L. unfold fread_items. rewrite Z.mul_1_l, Z.div_1_r. f_equal. unfold zlen in L. rewrite firstn_length, skipn_length. lia.
Qed.
Lemma fread_many data pos ws n : 0 <= pos -> 0 <= n -> 0 < ws -> pos + n * ws <= zlen data ->
  fread_items data pos ws n = (firstn (Z.to_nat (n * ws)) (skipn (Z.to_nat pos) data), n).
Proof.
  intros P N W L. unfold fread_items. rewrite (Z.mul_comm ws n). f_equal. unfold zlen in L. rewrite firstn_length, skipn_length.
  replace (Z.of_nat (Nat.min (Z.to_nat (n * ws)) (length data - Z.to_nat pos))) with (n * ws) by nia. apply Z.div_mul. lia.
Qed.

(** The loop over the files: [need] bytes are still wanted. *)
Lemma read_loop_in b w0 : sound_family b -> forall post fuel pre f p acc num,
  d_files b = pre ++ f :: post -> p_file p = Some (length pre) -> 0 <= p_pos p <= f_size f -> (length post < fuel)%nat ->
  0 <= num - zlen acc <= zlen (f_bytes f) - p_pos p + zlen (concat (map f_bytes post)) ->
  zlen acc < num -> num < 2 ^ 64 -> p_word p = u64 w0 ->
  exists p' w', read_loop fuel b p num acc = OK (b, p', acc ++ firstn (Z.to_nat (num - zlen acc)) (skipn (Z.to_nat (p_pos p)) (f_bytes f) ++ concat (map f_bytes post))) /\
    stands_at b p' (before pre + p_pos p + (num - zlen acc)) /\ p_word p' = u64 w' /\
    (aligned b -> (d_ws b | p_pos p) -> w' = w0 + (num - zlen acc) / d_ws b).
Proof.
  intros S post. revert w0. induction post as [|g post IH]; intros w0 fuel pre f p acc num E Pf Pp Fu Need Lt Big Pw.
  - (* last file *)
    destruct fuel as [|fuel]; [lia|]. cbn [read_loop]. fold (zlen acc). replace (zlen acc <? num) with true by lia.
    assert (Gf : good_file f) by (eapply good_in; eauto). destruct Gf as (Gs & Gk).
    unfold cur_file. rewrite Pf. assert (G : aget (d_files b) (length pre) = OK f) by (apply aget_OK; rewrite E, nth_error_app2, Nat.sub_diag by lia; reflexivity).
    rewrite G. cbn [bind]. pose proof (split_total b pre f [] E) as St. assert (T : total b < 2 ^ 63) by apply S.
    rewrite (u64_id (f_size f - p_pos p)) by (unfold before, zlen in *; lia).
    cbn [map concat] in Need. change (zlen []) with 0 in Need.
    assert ((num - zlen acc <=? f_size f - p_pos p) = true) as -> by (unfold zlen in *; lia).
    rewrite fread_one by (unfold zlen in *; lia). cbn [fst snd]. rewrite Z.eqb_refl.
    eexists. exists (w0 + (num - zlen acc) / d_ws b). split; [cbn [map concat]; rewrite app_nil_r; reflexivity|]. cbn [p_word p_pos p_file]. split; [|split; [rewrite Pw; apply u64_u64|auto]].
    exists pre, f, []. unfold before, zlen in *. cbn [p_file p_pos]. rewrite firstn_length, skipn_length. repeat split; auto; lia.
  - destruct fuel as [|fuel]; [lia|]. cbn [read_loop]. fold (zlen acc). replace (zlen acc <? num) with true by lia.
    assert (Gf : good_file f) by (eapply good_in; eauto). pose proof Gf as (Gs & Gk).
    unfold cur_file. rewrite Pf. assert (G : aget (d_files b) (length pre) = OK f) by (apply aget_OK; rewrite E, nth_error_app2, Nat.sub_diag by lia; reflexivity).
    rewrite G. cbn [bind]. pose proof (split_total b pre f (g :: post) E) as St. assert (T : total b < 2 ^ 63) by apply S.
    rewrite (u64_id (f_size f - p_pos p)) by (unfold before, zlen in *; lia).
    destruct (Z.leb_spec (num - zlen acc) (f_size f - p_pos p)) as [Le|Gt].
    + rewrite fread_one by (unfold zlen in *; lia). cbn [fst snd]. rewrite Z.eqb_refl.
      eexists. exists (w0 + (num - zlen acc) / d_ws b). split; [|].
      * f_equal. f_equal. f_equal. rewrite firstn_app.
        replace (Z.to_nat (num - zlen acc) - length (skipn (Z.to_nat (p_pos p)) (f_bytes f)))%nat with 0%nat by (rewrite skipn_length; lia). cbn [firstn]. rewrite app_nil_r. reflexivity.
      * cbn [p_word p_pos p_file]. split; [|split; [rewrite Pw; apply u64_u64|auto]].
        exists pre, f, (g :: post). unfold before, zlen in *. cbn [p_file p_pos]. rewrite firstn_length, skipn_length. repeat split; auto; lia.
    + set (c := f_size f - p_pos p) in *.
      assert (R : (if c =? 0 then ([], 0) else fread_items (f_bytes f) (p_pos p) 1 c) = (skipn (Z.to_nat (p_pos p)) (f_bytes f), c)).
      { destruct (Z.eqb_spec c 0) as [Z0|Nz].
        - rewrite skipn_all2 by (unfold c in *; lia). rewrite Z0. reflexivity.
        - rewrite fread_one by (unfold zlen, c in *; lia). f_equal. rewrite firstn_all2; auto. rewrite skipn_length. unfold c in *. lia. }
      rewrite R. rewrite Z.eqb_refl. cbn [p_file p_word p_pos].
      assert (Ps : p_pos p + Z.of_nat (length (skipn (Z.to_nat (p_pos p)) (f_bytes f))) = f_size f) by (rewrite skipn_length; lia).
      rewrite Ps.
      pose proof (next_file_spec b {| p_file := Some (length pre); p_word := u64 (p_word p + c / d_ws b); p_pos := f_size f |} pre f (g :: post) (w0 + c / d_ws b) S E eq_refl eq_refl) as Nx.
      cbn [p_word] in Nx. rewrite Pw, u64_u64 in Nx. rewrite Pw, u64_u64. rewrite (Nx eq_refl). cbn [bind].
      assert (E2 : d_files b = (pre ++ [f]) ++ g :: post) by (rewrite E, <- app_assoc; reflexivity).
      pose proof (good_in b (pre ++ [f]) g post S E2) as Gg. pose proof Gg as (Ggs & _).
      assert (La : zlen (acc ++ skipn (Z.to_nat (p_pos p)) (f_bytes f)) = zlen acc + c) by (rewrite zlen_app; unfold zlen at 2; unfold c; lia).
      destruct (IH (w0 + c / d_ws b) fuel (pre ++ [f]) g {| p_file := Some (length (pre ++ [f])); p_word := u64 (w0 + c / d_ws b); p_pos := 0 |} (acc ++ skipn (Z.to_nat (p_pos p)) (f_bytes f)) num) as (p' & w' & A & B & C & D);
        cbn [p_file p_word p_pos]; auto.
      * unfold zlen in *. lia.
      * cbn in Fu. lia.
      * rewrite La. cbn [map concat] in Need. rewrite zlen_app in Need. unfold c in *. unfold zlen in *. lia.
      * rewrite La. lia.
      * cbn [p_pos] in A, B, D. rewrite La in A, B, D. exists p', w'. split; [|split; [|split]]; auto.
        -- rewrite A. f_equal. f_equal. rewrite <- app_assoc. f_equal. cbn [skipn Z.to_nat map concat]. rewrite (firstn_app (Z.to_nat (num - zlen acc))).
           rewrite (firstn_all2 (n := Z.to_nat (num - zlen acc)) (skipn (Z.to_nat (p_pos p)) (f_bytes f))) by (rewrite skipn_length; lia). f_equal. f_equal. rewrite skipn_length. unfold c in *. lia.
        -- rewrite before_app in B by exact Gf. replace (before pre + p_pos p + (num - zlen acc)) with (before pre + f_size f + 0 + (num - (zlen acc + c))) by (unfold c; lia). exact B.
        -- intros Al Dv. rewrite D by (auto; apply Z.divide_0_r).
           assert (Dc : (d_ws b | c)). { unfold c. apply Z.divide_sub_r; auto. unfold aligned in Al. rewrite E in Al. apply Forall_app in Al as (_ & Al). inversion Al; assumption. }
           destruct Dc as (k & Hk). rewrite Hk. pose proof (sound_ws b S). rewrite Z.div_mul by lia.
           replace (num - (zlen acc + k * d_ws b)) with (num - zlen acc + (- k) * d_ws b) by lia. rewrite Z.div_add by lia. lia.
Qed.

Lemma read_loop_out b : sound_family b -> d_err b = None -> forall post fuel pre f p acc num,
  d_files b = pre ++ f :: post -> p_file p = Some (length pre) -> 0 <= p_pos p <= f_size f -> (length post < fuel)%nat ->
  zlen (f_bytes f) - p_pos p + zlen (concat (map f_bytes post)) < num - zlen acc -> num < 2 ^ 64 ->
  read_loop fuel b p num acc = OK (set_err b E_too_much, closed, acc ++ skipn (Z.to_nat (p_pos p)) (f_bytes f) ++ concat (map f_bytes post)).
Proof.
  intros S Er post. induction post as [|g post IH]; intros fuel pre f p acc num E Pf Pp Fu Need Big.
  all: destruct fuel as [|fuel]; [lia|]; cbn [read_loop]; fold (zlen acc).
  all: assert (Gf : good_file f) by (eapply good_in; eauto); pose proof Gf as (Gs & Gk).
  all: assert ((zlen acc <? num) = true) as -> by (unfold zlen in *; lia).
  all: unfold cur_file; rewrite Pf; assert (G : aget (d_files b) (length pre) = OK f) by (apply aget_OK; rewrite E, nth_error_app2, Nat.sub_diag by lia; reflexivity).
  all: rewrite G; cbn [bind]; pose proof (split_total b pre f _ E) as St; assert (T : total b < 2 ^ 63) by apply S.
  all: rewrite (u64_id (f_size f - p_pos p)) by (unfold before, zlen in *; lia).
  all: assert ((num - zlen acc <=? f_size f - p_pos p) = false) as -> by (unfold zlen in *; lia).
  all: set (c := f_size f - p_pos p) in *;
      assert (R : (if c =? 0 then ([], 0) else fread_items (f_bytes f) (p_pos p) 1 c) = (skipn (Z.to_nat (p_pos p)) (f_bytes f), c)) by
      (destruct (Z.eqb_spec c 0) as [Z0|Nz];
        [rewrite skipn_all2 by (unfold c in *; lia); rewrite Z0; reflexivity
        |rewrite fread_one by (unfold zlen, c in *; lia); f_equal; rewrite firstn_all2; auto; rewrite skipn_length; unfold c in *; lia]);
      rewrite R, Z.eqb_refl; cbn [p_file p_word p_pos];
      assert (Ps : p_pos p + Z.of_nat (length (skipn (Z.to_nat (p_pos p)) (f_bytes f))) = f_size f) by (rewrite skipn_length; lia); rewrite Ps.
  - pose proof (next_file_spec b {| p_file := Some (length pre); p_word := u64 (p_word p + c / d_ws b); p_pos := f_size f |} pre f [] _ S E eq_refl eq_refl eq_refl) as Nx.
    rewrite Nx. cbn [bind]. rewrite Er. cbn [map concat]. rewrite app_nil_r. reflexivity.
  - pose proof (next_file_spec b {| p_file := Some (length pre); p_word := u64 (p_word p + c / d_ws b); p_pos := f_size f |} pre f (g :: post) _ S E eq_refl eq_refl eq_refl) as Nx.
    rewrite Nx. cbn [bind].
    assert (E2 : d_files b = (pre ++ [f]) ++ g :: post) by (rewrite E, <- app_assoc; reflexivity).
    pose proof (good_in b (pre ++ [f]) g post S E2) as (Ggs & _).
    assert (La : zlen (acc ++ skipn (Z.to_nat (p_pos p)) (f_bytes f)) = zlen acc + c) by (rewrite zlen_app; unfold zlen at 2; unfold c; lia).
    rewrite (IH fuel (pre ++ [f]) g); auto; cbn [p_file p_pos].
    + cbn [Z.to_nat skipn map concat]. rewrite <- app_assoc. reflexivity.
    + lia.
    + cbn in Fu. lia.
    + rewrite La. cbn [map concat] in Need. rewrite zlen_app in Need. unfold c in *. unfold zlen in *. lia.
Qed.

Lemma stands_total b p pos : sound_family b -> stands_at b p pos -> 0 <= pos <= total b.
Proof.
  intros S (pre & f & post & E & Pf & Pp & ->). pose proof (split_total b pre f post E). pose proof (good_in b pre f post S E) as (Gs & _). unfold before, zlen in *. lia.
Qed.

Lemma read_in b p pos n w : sound_family b -> stands_at b p pos -> 0 <= n -> pos + n * d_ws b <= total b -> p_word p = u64 w ->
  exists p' w', read_words b p n = OK (b, p', bytes_from b pos (n * d_ws b)) /\ stands_at b p' (pos + n * d_ws b) /\ p_word p' = u64 w' /\
    (aligned b -> (d_ws b | pos) -> w' = w + n).
Proof.
  intros S At N L Pw. pose proof (stands_total b p pos S At). destruct At as (pre & f & post & E & Pf & Pp & Pos).
  pose proof (sound_ws b S) as Ws. pose proof (good_in b pre f post S E) as (Gs & Gk). pose proof (split_total b pre f post E) as St. assert (T : total b < 2 ^ 63) by apply S.
  fold (zlen (concat (map f_bytes pre))) in Pos. fold (before pre) in Pos. fold (zlen (f_bytes f)) in Gs. subst pos.
  unfold read_words, cur_file. rewrite Pf. assert (G : aget (d_files b) (length pre) = OK f) by (apply aget_OK; rewrite E, nth_error_app2, Nat.sub_diag by lia; reflexivity).
  rewrite G. cbn [bind]. rewrite (u64_id (n * d_ws b)) by nia. rewrite (u64_id (f_size f - p_pos p)) by (unfold before, zlen in *; lia).
  unfold bytes_from. rewrite (rest_at b pre f post (p_pos p) E) by lia.
  destruct (Z.leb_spec (n * d_ws b) (f_size f - p_pos p)) as [Le|Gt].
  - rewrite fread_many by (unfold zlen in *; lia). rewrite Z.eqb_refl. eexists. exists (w + n). split; [|split; [|split]].
    + f_equal. f_equal. rewrite firstn_app. replace (Z.to_nat (n * d_ws b) - length (skipn (Z.to_nat (p_pos p)) (f_bytes f)))%nat with 0%nat by (rewrite skipn_length; unfold zlen in *; lia).
      cbn [firstn]. rewrite app_nil_r. reflexivity.
    + exists pre, f, post. cbn [p_file p_pos]. rewrite firstn_length, skipn_length. unfold before, zlen in *. repeat split; auto; lia.
    + cbn [p_word]. rewrite Pw. apply u64_u64.
    + auto.
  - destruct (read_loop_in b w S post (Datatypes.S (length (d_files b))) pre f p [] (n * d_ws b)) as (p' & w' & A & B & C & D); auto.
    + rewrite E, app_length. cbn. lia.
    + change (zlen []) with 0. rewrite Z.sub_0_r. unfold zlen in *. lia.
    + change (zlen []) with 0. lia.
    + lia.
    + change (zlen []) with 0 in *. rewrite Z.sub_0_r in *. exists p', w'. split; [exact A|]. split; [exact B|]. split; [exact C|].
      intros Al Dv. rewrite D; auto; [rewrite Z.div_mul by lia; reflexivity|].
      replace (p_pos p) with (before pre + p_pos p - before pre) by lia. apply Z.divide_sub_r; auto.
      clear - Al E S. unfold aligned in Al. destruct S as (F & _). rewrite E in Al, F. apply Forall_app in Al as (Al & _). apply Forall_app in F as (F & _). unfold before. clear E.
      induction pre as [|x pre IH]; [apply Z.divide_0_r|]. inversion Al; inversion F as [|? ? (F1 & _) F2]; subst. cbn. rewrite zlen_app. apply Z.divide_add_r; auto. unfold zlen. rewrite <- F1. assumption.
Qed.

Lemma read_out b p pos n : sound_family b -> d_err b = None -> stands_at b p pos -> 0 <= n -> total b < pos + n * d_ws b -> n * d_ws b < 2 ^ 64 ->
  read_words b p n = OK (set_err b E_too_much, closed, skipn (Z.to_nat pos) (all_bytes b)).
Proof.
  intros S Er At N L Big. pose proof (stands_total b p pos S At). destruct At as (pre & f & post & E & Pf & Pp & Pos).
  pose proof (sound_ws b S) as Ws. pose proof (good_in b pre f post S E) as (Gs & Gk). pose proof (split_total b pre f post E) as St. assert (T : total b < 2 ^ 63) by apply S.
  fold (zlen (concat (map f_bytes pre))) in Pos. fold (before pre) in Pos. fold (zlen (f_bytes f)) in Gs. subst pos.
  unfold read_words, cur_file. rewrite Pf. assert (G : aget (d_files b) (length pre) = OK f) by (apply aget_OK; rewrite E, nth_error_app2, Nat.sub_diag by lia; reflexivity).
  rewrite G. cbn [bind]. rewrite (u64_id (n * d_ws b)) by nia. rewrite (u64_id (f_size f - p_pos p)) by (unfold before, zlen in *; lia).
  assert ((n * d_ws b <=? f_size f - p_pos p) = false) as -> by (unfold zlen in *; lia).
  rewrite (read_loop_out b S Er post _ pre f p [] (n * d_ws b)); auto.
  - rewrite (rest_at b pre f post (p_pos p) E) by lia. reflexivity.
  - rewrite E, app_length. cbn. lia.
  - change (zlen []) with 0. unfold zlen in *. lia.
Qed.

(** ** Sequences of reads *)
Lemma reads_in b : sound_family b -> d_err b = None -> forall counts p pos w, stands_at b p (pos * d_ws b) -> 0 <= pos -> Forall (fun n => 0 <= n) counts ->
  (pos + sum counts) * d_ws b <= total b -> p_word p = u64 w ->
  exists p' w', reads b p counts = OK (b, p', pieces b pos counts) /\ stands_at b p' ((pos + sum counts) * d_ws b) /\ p_word p' = u64 w' /\ (aligned b -> w' = w + sum counts).
Proof.
  intros S Er. pose proof (sound_ws b S) as Ws. induction counts as [|n r IH]; intros p pos w At P F L Pw; cbn [reads pieces sum] in *.
  - exists p, w. rewrite Z.add_0_r. repeat split; auto. intros. lia.
  - inversion F as [|? ? F1 F2]; subst.
    assert (Hr : 0 <= sum r) by (clear - F2; induction F2; cbn; lia).
    destruct (read_in b p (pos * d_ws b) n w S At F1) as (p1 & w1 & A & B & C & D); [nia|exact Pw|].
    rewrite A. cbn [bind]. rewrite Er.
    destruct (IH p1 (pos + n) w1) as (p2 & w2 & A2 & B2 & C2 & D2); auto; [replace ((pos + n) * d_ws b) with (pos * d_ws b + n * d_ws b) by ring; exact B|lia|replace (pos + n + sum r) with (pos + (n + sum r)) by ring; exact L|].
    rewrite A2. cbn [bind]. exists p2, w2. split; [reflexivity|]. split; [replace (pos + (n + sum r)) with (pos + n + sum r) by ring; exact B2|]. split; [exact C2|].
    intros Al. rewrite D2, D by (auto; apply Z.divide_factor_r). ring.
Qed.

Lemma pointer_close_ok b p pos : stands_at b p pos -> pointer_close b p = OK closed.
Proof.
  intros (pre & f & post & E & Pf & _). unfold pointer_close, cur_file. rewrite Pf.
  assert (G : aget (d_files b) (length pre) = OK f) by (apply aget_OK; rewrite E, nth_error_app2, Nat.sub_diag by lia; reflexivity). rewrite G. reflexivity.
Qed.

Lemma skip_in b p pos n : sound_family b -> stands_at b p (pos * d_ws b) -> p_word p = pos -> 0 <= pos -> 0 <= n -> (pos + n) * d_ws b < total b ->
  exists p', skip_words b p n = OK (b, p') /\ stands_at b p' ((pos + n) * d_ws b) /\ p_word p' = pos + n.
Proof.
  intros S At Pw P N L. pose proof (sound_ws b S) as Ws. assert (T : total b < 2 ^ 63) by apply S.
  unfold skip_words, ULONG_MAX. rewrite (u64_id (2 ^ 64 - 1 - n)) by nia. rewrite Pw.
  assert ((2 ^ 64 - 1 - n <=? pos) = false) as -> by nia.
  rewrite (pointer_close_ok _ _ _ At). cbn [bind]. rewrite u64_id by nia. apply seek_in; auto. lia.
Qed.
Lemma skip_out b p pos n : sound_family b -> stands_at b p (pos * d_ws b) -> p_word p = pos -> 0 <= pos -> 0 <= n < 2 ^ 64 -> total b <= (pos + n) * d_ws b ->
  (pos + n) * d_ws b < 2 ^ 64 \/ 2 ^ 64 - 1 <= pos + n ->
  exists e, skip_words b p n = OK (set_err b e, closed).
Proof.
  intros S At Pw P N L Big. pose proof (sound_ws b S) as Ws. pose proof (stands_total _ _ _ S At).
  assert (T : total b < 2 ^ 63) by apply S.
  unfold skip_words, ULONG_MAX. rewrite (u64_id (2 ^ 64 - 1 - n)) by lia. rewrite Pw.
  destruct (Z.leb_spec (2 ^ 64 - 1 - n) pos).
  - destruct At as (pre & f & post & E & Pf & R) eqn:Q. rewrite Pf. clear Q. rewrite (pointer_close_ok b p (pos * d_ws b)); [|exists pre, f, post; auto]. cbn [bind]. eauto.
  - rewrite (pointer_close_ok _ _ _ At). cbn [bind]. rewrite u64_id by lia. exists E_oob. apply seek_out; auto; lia.
Qed.

(** ** Word size *)
Lemma with_ws b w : sound_family b -> (w = 4 \/ w = 8) -> sound_family (set_ws b w).
Proof. intros (A & B & _) W. split; [exact A|split; [exact B|exact W]]. Qed.

Lemma probe_ok b w d : sound_family b -> d_err b = None -> 0 <= w -> (w + 1) * d_ws b <= total b -> probe b w d = OK (b, word_at b (d_ws b) w).
Proof.
  intros S Er W L. pose proof (sound_ws b S) as Ws. assert (T : total b < 2 ^ 63) by apply S.
  unfold probe, read_words_at. destruct (seek_in b w S W) as (p & A & At & Pw); [lia|]. rewrite A. cbn [bind]. rewrite Er.
  destruct (read_in b p (w * d_ws b) 1 w S At) as (p' & w' & B & At' & _); [lia|lia|rewrite Pw, u64_id by nia; reflexivity|].
  rewrite B. cbn [bind]. rewrite (pointer_close_ok _ _ _ At'). cbn [bind]. rewrite Er. unfold word_at. rewrite Z.mul_1_l. reflexivity.
Qed.
Lemma makes_sense_spec b ws : makes_sense (word_at b ws 15) (word_at b ws 17) (word_at b ws 11) (word_at b ws 19) (word_at b ws 22) = true <-> plausible b ws.
Proof. unfold makes_sense, plausible. cbv zeta. generalize (word_at b ws 15) (word_at b ws 17) (word_at b ws 11) (word_at b ws 19) (word_at b ws 22). intros. lia. Qed.
Lemma probe_all_ok b : sound_family b -> d_err b = None -> 23 * d_ws b <= total b ->
  probe_all b = OK (b, makes_sense (word_at b (d_ws b) 15) (word_at b (d_ws b) 17) (word_at b (d_ws b) 11) (word_at b (d_ws b) 19) (word_at b (d_ws b) 22)).
Proof.
  intros S Er L. pose proof (sound_ws b S). unfold probe_all.
  rewrite (probe_ok b 15 0 S Er) by lia. cbn [bind]. rewrite (probe_ok b 17 0 S Er) by lia. cbn [bind]. rewrite (probe_ok b 11 0 S Er) by lia. cbn [bind].
  rewrite (probe_ok b 19 999 S Er) by lia. cbn [bind]. rewrite (probe_ok b 22 999 S Er) by lia. reflexivity.
Qed.

Lemma family_spec fs root : forall fuel i, exists n, length (family fuel fs root i) = n /\ (n <= fuel)%nat /\
  (forall k f, nth_error (family fuel fs root i) k = Some f -> fs (root ++ index_string (i + k)) = Some f) /\
  ((n < fuel)%nat -> fs (root ++ index_string (i + n)) = None).
Proof.
  induction fuel as [|fuel IH]; intros i; cbn [family].
  - exists 0%nat. repeat split; auto; [intros [|k] f Q; discriminate|lia].
  - destruct (fs (root ++ index_string i)) as [f|] eqn:E.
    + destruct (IH (i + 1)%nat) as (n & A & B & C & D). exists (Datatypes.S n). cbn [length]. rewrite A. repeat split; auto; [lia| |].
      * intros [|k] g Q; cbn in Q; [injection Q as <-; rewrite Nat.add_0_r; exact E|]. replace (i + Datatypes.S k)%nat with (i + 1 + k)%nat by lia. apply C. exact Q.
      * intros Lt. replace (i + Datatypes.S n)%nat with (i + 1 + n)%nat by lia. apply D. lia.
    + exists 0%nat. repeat split; auto; [lia|intros [|k] g Q; discriminate|intros _; rewrite Nat.add_0_r; exact E].
Qed.
Lemma file_number_index i : (i < 1000)%nat -> file_number i = index_string i.
Proof.
  assert (H : forallb (fun i => if list_eq_dec Z.eq_dec (file_number i) (index_string i) then true else false) (seq 0 1000) = true) by (vm_compute; reflexivity).
  intros L. rewrite forallb_forall in H. specialize (H i ltac:(apply in_seq; lia)).
  destruct (list_eq_dec Z.eq_dec (file_number i) (index_string i)); [assumption|discriminate].
Qed.
Lemma max_files : MAX_FILES = 1000%nat.
Proof. reflexivity. Qed.
Lemma family_family_of fs root : family_of fs root (family MAX_FILES fs root 0).
Proof.
  unfold family_of. destruct (family_spec fs root MAX_FILES 0) as (n & A & B & C & D). rewrite A. rewrite max_files in *.
  split; [exact B|]. split.
  - intros i f Q. assert (i < n)%nat by (rewrite <- A; apply nth_error_Some; congruence). rewrite file_number_index by lia. apply (C i f Q).
  - intros L. rewrite file_number_index by lia. apply D. exact L.
Qed.
Lemma index_string_short i : (length (index_string i) <= 3)%nat.
Proof. unfold index_string. destruct (i =? 0)%nat; cbn; [lia|]. destruct (Z.of_nat i <? 100); cbn; lia. Qed.

Lemma short_seek b w : Forall good_file (d_files b) -> 0 <= w -> total b <= w * d_ws b < 2 ^ 64 -> seek b w = OK (set_err b E_oob, closed).
Proof. intros F W P. unfold seek. rewrite u64_id by (unfold total in P; lia). rewrite locate_none; [reflexivity|exact F|unfold total, all_bytes in P; unfold zlen; lia]. Qed.

Definition start_buffer (files : list dfile) : dbuf := {| d_files := files; d_ws := 4; d_err := None |}.
Definition verdict (b : dbuf) (ws : Z) : bool := makes_sense (word_at b ws 15) (word_at b ws 17) (word_at b ws 11) (word_at b ws 19) (word_at b ws 22).
Lemma open_ok fs root files : family MAX_FILES fs root 0 = files -> sound_family (start_buffer files) -> 184 <= total (start_buffer files) ->
  open fs root = OK (let b := start_buffer files in
    if (negb (verdict b 4) && negb (verdict b 8)) || (verdict b 4 && verdict b 8) then set_err (set_ws b 8) E_broken else set_ws b (if verdict b 8 then 8 else 4)).
Proof.
  intros E S L. unfold open. rewrite E. cbv zeta. fold (start_buffer files).
  destruct (Nat.eqb_spec (length files) 0) as [Z0|Nz].
  { exfalso. destruct files; [|discriminate]. unfold total, all_bytes in L. cbn in L. lia. }
  set (b := start_buffer files) in *. change (set_ws b 4) with b.
  rewrite (probe_all_ok b S eq_refl) by (change (d_ws b) with 4; lia). cbn [bind].
  rewrite (probe_all_ok (set_ws b 8)); [|apply with_ws; auto|reflexivity|change (d_ws (set_ws b 8)) with 8; change (total (set_ws b 8)) with (total b); lia].
  cbn [bind]. change (d_ws b) with 4. change (d_ws (set_ws b 8)) with 8.
  change (word_at (set_ws b 8) 8) with (word_at b 8). fold (verdict b 4). fold (verdict b 8).
  destruct ((negb (verdict b 4) && negb (verdict b 8)) || (verdict b 4 && verdict b 8)); reflexivity.
Qed.

Lemma nth_error_ext {A} : forall a c : list A, (forall i, nth_error a i = nth_error c i) -> a = c.
Proof.
  induction a as [|x a IH]; intros [|y c] Q; [reflexivity|specialize (Q 0%nat); discriminate|specialize (Q 0%nat); discriminate|].
  pose proof (Q 0%nat) as Q0. injection Q0 as ->. f_equal. apply IH. intros i. exact (Q (Datatypes.S i)).
Qed.
Lemma family_unique fs root a c : family_of fs root a -> family_of fs root c -> a = c.
Proof.
  unfold family_of. generalize 1000%nat. intros m (A1 & A2 & A3) (C1 & C2 & C3).
  assert (L : length a = length c).
  { destruct (Nat.lt_trichotomy (length a) (length c)) as [X|[X|X]]; [exfalso|exact X|exfalso].
    - destruct (nth_error c (length a)) eqn:Q; [|apply nth_error_None in Q; lia]. rewrite (C2 _ _ Q) in A3. discriminate A3. lia.
    - destruct (nth_error a (length c)) eqn:Q; [|apply nth_error_None in Q; lia]. rewrite (A2 _ _ Q) in C3. discriminate C3. lia. }
  clear A1 A3 C1 C3. apply nth_error_ext. intros i.
  destruct (nth_error a i) eqn:Qa, (nth_error c i) eqn:Qc; auto.
  - apply A2 in Qa. apply C2 in Qc. congruence.
  - apply nth_error_None in Qc. assert (nth_error a i <> None) by congruence. apply nth_error_Some in H. lia.
  - apply nth_error_None in Qa. assert (nth_error c i <> None) by congruence. apply nth_error_Some in H. lia.
Qed.

(** Nothing changes the files. *)
Lemma seek_files b w b' p : seek b w = OK (b', p) -> d_files b' = d_files b.
Proof.
  unfold seek. destruct (locate _ _ _) as [[i pos]|]; [|intros [= <- <-]; reflexivity].
  destruct (aget (d_files b) i) as [f| |]; cbn [bind]; try discriminate. destruct (f_ok f); [|intros [= <- <-]; reflexivity].
  destruct (fseek_to (s64 pos)); [intros [= <- <-]; reflexivity|]. destruct (pointer_close _ _); cbn [bind]; try discriminate. intros [= <- <-]. reflexivity.
Qed.
Lemma next_file_files b p b' p' k : next_file b p = OK (b', p', k) -> d_files b' = d_files b.
Proof.
  unfold next_file. destruct (cur_file b p) as [[i f]| |]; cbn [bind]; try discriminate. destruct (pointer_close _ _); cbn [bind]; try discriminate.
  destruct (_ =? _)%nat; [intros [= <- <- <-]; reflexivity|]. destruct (aget _ _) as [g| |]; cbn [bind]; try discriminate.
  destruct (f_ok g); intros [= <- <- <-]; reflexivity.
Qed.
Lemma read_loop_files : forall fuel b p n acc b' p' d, read_loop fuel b p n acc = OK (b', p', d) -> d_files b' = d_files b.
Proof.
  induction fuel as [|fuel IH]; intros b p n acc b' p' d; cbn [read_loop]; [discriminate|].
  destruct (_ <? _); [|intros [= <- <- <-]; reflexivity]. destruct (cur_file b p) as [[i f]| |]; cbn [bind]; try discriminate.
  destruct (_ <=? _).
  - destruct (fread_items _ _ _ _) as [x c]. destruct (_ =? _); intros [= <- <- <-]; reflexivity.
  - destruct (if _ =? _ then _ else _) as [x c]. destruct (_ =? _); [|intros [= <- <- <-]; reflexivity].
    destruct (next_file _ _) as [[[b1 p1] k]| |] eqn:Nf; cbn [bind]; try discriminate. apply next_file_files in Nf.
    destruct k; [intros Q; apply IH in Q; congruence|]. destruct (d_err b1); intros [= <- <- <-]; exact Nf.
Qed.
Lemma read_words_files b p n b' p' d : read_words b p n = OK (b', p', d) -> d_files b' = d_files b.
Proof.
  unfold read_words. destruct (cur_file b p) as [[i f]| |]; cbn [bind]; try discriminate.
  destruct (_ <=? _); [|apply read_loop_files]. destruct (fread_items _ _ _ _) as [x c]. destruct (_ =? _); intros [= <- <- <-]; reflexivity.
Qed.
Lemma read_words_at_files b n w b' p d : read_words_at b n w = OK (b', p, d) -> d_files b' = d_files b.
Proof.
  unfold read_words_at. destruct (seek b w) as [[b1 p1]| |] eqn:Sk; cbn [bind]; try discriminate. apply seek_files in Sk.
  destruct (d_err b1); [intros [= <- <- <-]; exact Sk|]. intros Q. apply read_words_files in Q. congruence.
Qed.
Lemma probe_files b w d b' v : probe b w d = OK (b', v) -> d_files b' = d_files b.
Proof.
  unfold probe. destruct (read_words_at b 1 w) as [[[b1 p1] x]| |] eqn:R; cbn [bind]; try discriminate. apply read_words_at_files in R.
  destruct (pointer_close _ _); cbn [bind]; try discriminate. destruct (d_err b1); intros [= <- <-]; exact R.
Qed.
Lemma probe_all_files b b' v : probe_all b = OK (b', v) -> d_files b' = d_files b.
Proof.
  unfold probe_all.
  destruct (probe b 15 0) as [[b1 v1]| |] eqn:P1; cbn [bind]; try discriminate. apply probe_files in P1.
  destruct (probe b1 17 0) as [[b2 v2]| |] eqn:P2; cbn [bind]; try discriminate. apply probe_files in P2.
  destruct (probe b2 11 0) as [[b3 v3]| |] eqn:P3; cbn [bind]; try discriminate. apply probe_files in P3.
  destruct (probe b3 19 999) as [[b4 v4]| |] eqn:P4; cbn [bind]; try discriminate. apply probe_files in P4.
  destruct (probe b4 22 999) as [[b5 v5]| |] eqn:P5; cbn [bind]; try discriminate. apply probe_files in P5.
  intros [= <- <-]. congruence.
Qed.
Lemma open_files fs root files b : open fs root = OK b -> family MAX_FILES fs root 0 = files -> d_files b = files.
Proof.
  intros O E. unfold open in O. rewrite E in O. cbv zeta in O. destruct (length files =? 0)%nat.
  - destruct (_ <=? _)%nat; [injection O as <-; reflexivity|discriminate].
  - destruct (probe_all (set_ws _ 4)) as [[b1 m1]| |] eqn:P1; cbn [bind] in O; try discriminate. apply probe_all_files in P1.
    destruct (probe_all (set_ws b1 8)) as [[b2 m2]| |] eqn:P2; cbn [bind] in O; try discriminate. apply probe_all_files in P2.
    cbn [set_ws d_files] in P1, P2. destruct (_ || _); injection O as <-; cbn [set_err set_ws d_files]; congruence.
Qed.

(** A probe beyond the end closes a closed pointer. *)
Lemma probe_short b w d : sound_family b -> d_err b = None -> 0 <= w -> w * d_ws b < 2 ^ 64 -> total b < (w + 1) * d_ws b -> probe b w d = UB.
Proof.
  intros S Er W B L. pose proof (sound_ws b S). unfold probe, read_words_at.
  destruct (Z.lt_ge_cases (w * d_ws b) (total b)) as [In|Out].
  - destruct (seek_in b w S W In) as (p & A & At & Pw). rewrite A. cbn [bind]. rewrite Er.
    rewrite (read_out b p (w * d_ws b) 1) by (auto; lia). reflexivity.
  - rewrite (seek_out b w) by (auto; lia). reflexivity.
Qed.
Lemma probe_all_short b : sound_family b -> d_err b = None -> total b < 23 * d_ws b -> probe_all b = UB.
Proof.
  intros S Er L. pose proof (sound_ws b S) as Ws. unfold probe_all.
  destruct (Z.lt_ge_cases (total b) (16 * d_ws b)); [rewrite (probe_short b 15) by (auto; lia); reflexivity|]. rewrite (probe_ok b 15) by (auto; lia). cbn [bind].
  destruct (Z.lt_ge_cases (total b) (18 * d_ws b)); [rewrite (probe_short b 17) by (auto; lia); reflexivity|]. rewrite (probe_ok b 17) by (auto; lia). cbn [bind].
  rewrite (probe_ok b 11) by (auto; lia). cbn [bind].
  destruct (Z.lt_ge_cases (total b) (20 * d_ws b)); [rewrite (probe_short b 19) by (auto; lia); reflexivity|]. rewrite (probe_ok b 19) by (auto; lia). cbn [bind].
  rewrite (probe_short b 22) by (auto; lia). reflexivity.
Qed.
Lemma open_short fs root files : family MAX_FILES fs root 0 = files -> files <> [] -> Forall good_file files -> total (start_buffer files) < 184 -> open fs root = UB.
Proof.
  intros E Ne G L. unfold open. rewrite E. cbv zeta. fold (start_buffer files).
  destruct (Nat.eqb_spec (length files) 0) as [Z0|Nz]; [destruct files; [congruence|discriminate]|].
  set (b := start_buffer files) in *. change (set_ws b 4) with b.
  assert (Sd : sound_family b) by (split; [exact G|split; [lia|left; reflexivity]]).
  destruct (Z.lt_ge_cases (total b) 92).
  - rewrite (probe_all_short b) by (auto; change (d_ws b) with 4; lia). reflexivity.
  - rewrite (probe_all_ok b Sd eq_refl) by (change (d_ws b) with 4; lia). cbn [bind].
    rewrite (probe_all_short (set_ws b 8)); [reflexivity|apply with_ws; auto|reflexivity|]. change (total (set_ws b 8)) with (total b). cbn. lia.
Qed.
Lemma family_head fs root f n : fs root = Some f -> exists r, family (Datatypes.S n) fs root 0 = f :: r.
Proof. intros Q. cbn [family]. unfold index_string at 1. cbn [Nat.eqb]. rewrite app_nil_r, Q. eauto. Qed.
Lemma open_unreadable fs root f : fs root = Some f -> f_ok f = false -> 0 < f_size f -> open fs root = UB \/ f_size f <= 60.
Proof.
  intros Q K P. destruct (Z.le_gt_cases (f_size f) 60) as [|Big]; [right; assumption|left].
  unfold open. assert (exists r, family MAX_FILES fs root 0 = f :: r) as (r & ->) by (unfold MAX_FILES; apply family_head; exact Q).
  cbv zeta. cbn [length Nat.eqb]. unfold probe_all, probe, read_words_at, seek. cbn [set_ws d_files d_ws locate].
  change (u64 (15 * 4)) with 60. destruct (Z.ltb_spec 60 (f_size f)); [|lia]. cbn [aget nth_error bind]. rewrite K. reflexivity.
Qed.
