(** * Proofs about the line reader *)
From Verif Require Import CBase CBaseFacts StringModel StringSpec StringProofs LineModel LineSpec.

Definition noLF (l : list Z) : Prop := Forall (fun c => c <> LF) l.

Lemma put_spec e i v w x r : length (es_buffer e) = 82 -> es_mem e = w ++ x :: r -> i = length w ->
  exists e', extra_string_set e i v = OK e' /\ es_mem e' = w ++ v :: r /\
    length (es_buffer e') = 82.
Proof.
  intros Hb Hm ->. pose proof (es_set_mem e (length w) v Hb) as S.
  rewrite Hm, aset_at in S. destruct (extra_string_set e (length w) v) as [e'| |]; try contradiction.
  exists e'. intuition.
Qed.

Lemma get_spec e i w x r : length (es_buffer e) = 82 -> es_mem e = w ++ x :: r -> i = length w ->
  extra_string_get e i = OK x.
Proof.
  intros Hb Hm ->. rewrite es_get_mem by assumption. rewrite Hm.
  unfold aget. rewrite nth_error_app2, Nat.sub_diag by lia. reflexivity.
Qed.

(** line memory: the characters [w] read so far and at least one more cell *)
Definition mem_holds (e : extra_string) (w : list Z) : Prop :=
  length (es_buffer e) = 82 /\ exists x r, es_mem e = w ++ x :: r /\ noLF w /\ noLF (x :: r).

Lemma grow_spec fill e w r :
  (forall k, fill k <> LF) ->
  length (es_buffer e) = 82 -> es_mem e = w ++ r -> noLF w -> noLF r ->
  mem_holds (lr_grow fill e (length w)) w.
Proof.
  intros Hf Hb Hm Hw Hr. unfold lr_grow, ESB, mem_holds.
  assert (L : 82 + length (es_extra e) = length w + length r).
  { rewrite <- Hb, <- app_length, <- app_length, <- Hm. reflexivity. }
  destruct (Nat.leb_spec 82 (length w)), (Nat.ltb_spec (length (es_extra e)) (length w + 1 - 82)); cbn [andb].
  - cbn [es_buffer]. split; [assumption|].
    assert (r = []) as -> by (destruct r; [reflexivity|cbn [length] in L; lia]).
    rewrite app_nil_r in Hm.
    exists (fill (length (es_extra e))), (map fill (seq (S (length (es_extra e))) 81)).
    unfold es_mem in *. cbn [es_buffer es_extra]. rewrite app_assoc, Hm. repeat split; auto.
    constructor; [apply Hf|]. apply Forall_forall. intros z Hz. apply in_map_iff in Hz as (k & <- & _). apply Hf.
  - split; [assumption|]. destruct r as [|x r]; [cbn [length] in L; lia|]. eauto.
  - split; [assumption|]. destruct r as [|x r]; [cbn [length] in L; lia|]. eauto.
  - split; [assumption|]. destruct r as [|x r]; [cbn [length] in L; lia|]. eauto.
Qed.

Lemma first_dollar_snoc w c : first_dollar (w ++ [c]) =
  match first_dollar w with Some k => Some k | None => if (c =? DOLLAR)%Z then Some (length w) else None end.
Proof.
  induction w as [|x w IH]; simpl.
  - destruct (c =? DOLLAR)%Z; reflexivity.
  - destruct (x =? DOLLAR)%Z; [reflexivity|]. rewrite IH.
    destruct (first_dollar w); [reflexivity|]. destruct (c =? DOLLAR)%Z; reflexivity.
Qed.

Lemma clean_app a b : clean (a ++ b) = clean a ++ clean b.
Proof. unfold clean. apply filter_app. Qed.

Lemma noLF_clean l : noLF l -> noLF (clean l).
Proof. unfold noLF, clean. rewrite !Forall_forall. intros H x Hx. apply filter_In in Hx. apply H. tauto. Qed.

Lemma nth_error_skipn {A} (l : list A) i x t : skipn i l = x :: t -> nth_error l i = Some x /\ skipn (i + 1) l = t.
Proof.
  revert l; induction i as [|i IH]; intros [|y l] H; simpl in *; try discriminate.
  - injection H as -> ->. auto.
  - apply IH. assumption.
Qed.

Definition reading (st : line_reader) (w : list Z) : Prop :=
  mem_holds (lr_line st) w /\ lr_len st = length w /\ lr_comment st = first_dollar w.

Lemma rl_inner_spec fill (Hf : forall k, fill k <> LF) t : forall st w,
  reading st w -> skipn (lr_index st) (lr_chunk st) = t ->
  exists st', rl_inner fill (length t) st = OK st' /\
    lr_rest st' = lr_rest st /\ lr_eof st' = lr_eof st /\ lr_chunk st' = lr_chunk st /\
    ((noLF t /\ reading st' (w ++ clean t) /\ lr_index st' = lr_index st + length t) \/
     (exists a b r, t = a ++ LF :: b /\ noLF a /\ lr_index st' = lr_index st + length a + 1 /\
        lr_len st' = length (w ++ clean a) /\ lr_comment st' = first_dollar (w ++ clean a) /\
        length (es_buffer (lr_line st')) = 82 /\
        es_mem (lr_line st') = (w ++ clean a) ++ LF :: r /\ noLF (w ++ clean a) /\ noLF r)).
Proof.
  induction t as [|c t IH]; intros st w (Hm & Hl & Hc) Ht; cbn [length rl_inner].
  - exists st. repeat split; auto. left. split; [constructor|]. cbn [clean filter]. unfold clean; cbn [filter]. rewrite app_nil_r, Nat.add_0_r.
    split; [exact (conj Hm (conj Hl Hc))|reflexivity].
  - apply nth_error_skipn in Ht as [Hn Ht].
    unfold aget. rewrite Hn. cbn [bind].
    destruct Hm as (Hb & x & r & Hm & Hw & Hr).
    destruct (put_spec (lr_line st) (lr_len st) c w x r Hb Hm Hl) as (l & -> & Hm' & Hb'). cbn [bind].
    assert (Hr' : noLF r) by (inversion Hr; assumption).
    destruct (Z.eqb_spec c CR) as [->|Ncr].
    { set (st1 := {| lr_rest := _ |}).
      destruct (IH st1 w) as (st' & E & R1 & R2 & R3 & D).
      { repeat split; auto.
        - exists CR, r. repeat split; auto. constructor; [discriminate|assumption].
        - unfold st1; cbn. rewrite Hc. destruct (first_dollar w); reflexivity. }
      { exact Ht. }
      exists st'. split; [exact E|]. split; [exact R1|]. split; [exact R2|]. split; [exact R3|].
      destruct D as [(D1 & D2 & D3)|(a & b & r' & D1 & D2 & D3 & D)].
      - left. split; [constructor; [discriminate|assumption]|]. split; [exact D2|].
        rewrite D3. unfold st1; cbn. lia.
      - right. exists (CR :: a), b, r'. split; [rewrite D1; reflexivity|].
        split; [constructor; [discriminate|assumption]|]. split; [rewrite D3; unfold st1; cbn; lia|].
        exact D. }
    destruct (Z.eqb_spec c LF) as [->|Nlf].
    { eexists. split; [reflexivity|]. repeat split; auto. right.
      exists [], t, r. cbn [lr_index lr_len lr_comment lr_line clean filter app length]. unfold clean; cbn [filter].
      rewrite app_nil_r. repeat split; auto; try lia; try constructor.
      rewrite Hc. destruct (first_dollar w); reflexivity. }
    assert (Hw' : noLF (w ++ [c])) by (apply Forall_app; split; [assumption|constructor; [assumption|constructor]]).
    replace (lr_len st + 1) with (length (w ++ [c])) by (rewrite app_length, Hl; reflexivity).
    set (st1 := {| lr_rest := _ |}).
    destruct (IH st1 (w ++ [c])) as (st' & E & R1 & R2 & R3 & D).
    { repeat split; auto.
      - unfold st1; cbn [lr_line]. apply (grow_spec fill l (w ++ [c]) r); auto.
        rewrite <- app_assoc. exact Hm'.
      - unfold st1; cbn [lr_line]. apply (grow_spec fill l (w ++ [c]) r); auto.
        rewrite <- app_assoc. exact Hm'.
      - unfold st1; cbn [lr_comment]. rewrite first_dollar_snoc, Hc, Hl. reflexivity. }
    { exact Ht. }
    assert (Ecl : forall a, w ++ clean (c :: a) = (w ++ [c]) ++ clean a).
    { intros a. unfold clean. cbn [filter]. destruct (Z.eqb_spec c CR); [congruence|]. cbn [negb].
      rewrite <- app_assoc. reflexivity. }
    exists st'. split; [exact E|]. split; [exact R1|]. split; [exact R2|]. split; [exact R3|].
    destruct D as [(D1 & D2 & D3)|(a & b & r' & D1 & D2 & D3 & D)].
    + left. split; [constructor; assumption|]. rewrite Ecl. split; [exact D2|].
      rewrite D3. unfold st1; cbn [lr_index]. lia.
    + right. exists (c :: a), b, r'. rewrite Ecl. split; [rewrite D1; reflexivity|].
      split; [constructor; assumption|]. split; [rewrite D3; unfold st1; cbn [lr_index length]; lia|].
      exact D.
Qed.

(** what is still to be delivered *)
Definition remaining (st : line_reader) : list Z := skipn (lr_index st) (lr_chunk st) ++ lr_rest st.

(** [A]: the file size is a multiple of [N] *)
Definition stream_ok (N : nat) (A : Prop) (st : line_reader) : Prop :=
  (lr_eof st = true -> lr_rest st = [] /\ (A -> lr_chunk st = [])) /\
  (lr_eof st = false -> (A <-> exists k, length (lr_rest st) = k * N)).

(** result of one line *)
Definition line_done (st : line_reader) (line : list Z) : Prop :=
  mem_holds (lr_line st) line /\ shows (seen st) line.

Lemma finish_spec st w x r : length (es_buffer (lr_line st)) = 82 ->
  es_mem (lr_line st) = w ++ x :: r -> noLF w -> noLF r -> lr_len st = length w ->
  lr_comment st = first_dollar w ->
  exists l, extra_string_set (lr_line st) (lr_len st) NUL = OK l /\
    line_done {| lr_rest := lr_rest st; lr_eof := lr_eof st; lr_line := l; lr_len := lr_len st;
            lr_comment := lr_comment st; lr_chunk := lr_chunk st; lr_index := lr_index st |} w.
Proof.
  intros Hb Hm Hw Hr Hl Hc.
  destruct (put_spec (lr_line st) (lr_len st) NUL w x r Hb Hm Hl) as (l & E & Hm' & Hb').
  exists l. split; [exact E|]. split.
  - split; [exact Hb'|]. exists NUL, r. repeat split; auto. constructor; [discriminate|assumption].
  - unfold seen, shows. cbn [lr_line lr_len lr_comment]. split; [exact Hl|]. split; [|exact Hc].
    exists r. exact Hm'.
Qed.

Lemma noLF_app a b : noLF (a ++ b) <-> noLF a /\ noLF b.
Proof. apply Forall_app. Qed.

Lemma rl_outer_spec N fill (HN : 0 < N) (Hf : forall k, fill k <> LF) A fuel : forall st w,
  reading st w -> stream_ok N A st -> length (lr_rest st) + 3 <= fuel + (if length (lr_chunk st) <=? lr_index st then 1 else 0) ->
  exists st', rl_outer N fill fuel st = OK st' /\ stream_ok N A st' /\
    ((exists a b, remaining st = a ++ LF :: b /\ noLF a /\ remaining st' = b /\ line_done st' (w ++ clean a) /\
        (A -> lr_eof st = false -> lr_eof st' = false)) \/
     (noLF (remaining st) /\ remaining st' = [] /\ lr_eof st' = true /\ lr_chunk st' = [] /\
        line_done st' (w ++ clean (remaining st)))).
Proof.
  induction fuel as [|fuel IH]; intros st w Hr Hs Hfu; [destruct (_ <=? _); lia|].
  cbn [rl_outer].
  set (go := rl_consume fill (rl_outer N fill fuel)).
  (* reading from the buffer *)
  assert (Hgo : forall st1, reading st1 w -> stream_ok N A st1 ->
     lr_index st1 < length (lr_chunk st1) -> length (lr_rest st1) + 3 <= fuel + 1 ->
     exists st', go st1 = OK st' /\ stream_ok N A st' /\
    ((exists a b, remaining st1 = a ++ LF :: b /\ noLF a /\ remaining st' = b /\ line_done st' (w ++ clean a) /\
        (A -> lr_eof st1 = false -> lr_eof st' = false)) \/
     (noLF (remaining st1) /\ remaining st' = [] /\ lr_eof st' = true /\ lr_chunk st' = [] /\
        line_done st' (w ++ clean (remaining st1))))).
  { intros st1 R1 S1 Hi1 Hfu1. unfold go, rl_consume.
    destruct (rl_inner_spec fill Hf (skipn (lr_index st1) (lr_chunk st1)) st1 w R1 eq_refl)
      as (st2 & E & Q1 & Q2 & Q3 & D).
    rewrite skipn_length in E. rewrite E. cbn [bind].
    assert (S2 : stream_ok N A st2) by (unfold stream_ok in *; rewrite Q1, Q2, Q3; exact S1).
    destruct D as [(D1 & D2 & D3)|(a & b & r & D1 & D2 & D3 & D4 & D5 & D6 & D7 & D8 & D9)].
    - pose proof D2 as ((Hb2 & x & r & Hm2 & Hw2 & Hr2) & Hl2 & Hc2).
      rewrite (get_spec _ _ _ _ _ Hb2 Hm2 Hl2). cbn [bind].
      assert (x <> LF) by (inversion Hr2; assumption).
      destruct (Z.eqb_spec x LF); [congruence|].
      rewrite skipn_length in D3.
      assert (Hidx : length (lr_chunk st2) <= lr_index st2) by (rewrite Q3, D3; lia).
      destruct (IH st2 (w ++ clean (skipn (lr_index st1) (lr_chunk st1))) D2 S2) as (st' & E' & S' & D').
      { destruct (Nat.leb_spec (length (lr_chunk st2)) (lr_index st2)); [rewrite Q1; lia|lia]. }
      exists st'. split; [exact E'|]. split; [exact S'|].
      assert (Er2 : remaining st2 = lr_rest st1).
      { unfold remaining. rewrite Q1, skipn_all2 by assumption. reflexivity. }
      rewrite Er2 in D'.
      destruct D' as [(a & b & K1 & K2 & K3 & K4 & K5)|(K1 & K2 & K3 & K4 & K5)].
      + left. exists (skipn (lr_index st1) (lr_chunk st1) ++ a), b.
        unfold remaining at 1. rewrite K1, app_assoc. split; [reflexivity|].
        split; [apply noLF_app; auto|]. split; [exact K3|].
        rewrite clean_app, app_assoc. split; [exact K4|].
        rewrite Q2 in K5. exact K5.
      + right. unfold remaining at 1. split; [apply noLF_app; auto|].
        split; [exact K2|]. split; [exact K3|]. split; [exact K4|].
        unfold remaining. rewrite clean_app, app_assoc. exact K5.
    - rewrite (get_spec _ _ _ _ _ D6 D7 D4). cbn [bind]. rewrite Z.eqb_refl.
      destruct (finish_spec st2 _ _ _ D6 D7 D8 D9 D4 D5) as (l & El & Dl).
      unfold rl_finish. rewrite El. cbn [bind]. eexists; split; [reflexivity|].
      split; [exact S2|]. left. exists a, (b ++ lr_rest st1).
      unfold remaining at 1. rewrite D1, <- app_assoc. split; [reflexivity|].
      split; [exact D2|]. split; [|split; [exact Dl|intros _ Ee; cbn [lr_eof]; congruence]].
      unfold remaining. cbn [lr_index lr_chunk lr_rest]. rewrite Q1, Q3, D3.
      f_equal. rewrite <- Nat.add_assoc, <- skipn_skipn, D1.
      replace (length a + 1) with (length (a ++ [LF])) by (rewrite app_length; reflexivity).
      replace (a ++ LF :: b) with ((a ++ [LF]) ++ b) by (rewrite <- app_assoc; reflexivity).
      apply skipn_app_exact. }
  destruct (Nat.eqb_spec (length (lr_chunk st)) 0) as [Z0|Z0];
  [|destruct (Nat.leb_spec (length (lr_chunk st)) (lr_index st)) as [Z1|Z1]]; cbn [orb].
  3:{ apply Hgo; auto. lia. }
  all: assert (Hrem : remaining st = lr_rest st) by (unfold remaining; rewrite skipn_all2 by lia; reflexivity).
  all: assert (Hfu' : length (lr_rest st) + 3 <= S fuel + 1) by (destruct (length (lr_chunk st) <=? lr_index st); lia).
  all: clear Hfu; rewrite Hrem.
  all: destruct (Nat.eqb_spec (length (firstn N (lr_rest st))) 0) as [F0|F0].
  1,3: (assert (Er : lr_rest st = []) by (destruct (lr_rest st); [reflexivity|destruct N; [lia|cbn in F0; lia]]);
      rewrite Er; rewrite firstn_nil, skipn_nil; cbn [length];
      destruct (Nat.ltb_spec 0 N); [|lia];
      destruct Hr as ((Hb & x & r & Hm & Hw & Hrr) & Hl & Hc);
      assert (Hrr' : noLF r) by (inversion Hrr; assumption);
      set (st1 := {| lr_rest := [] |});
      destruct (finish_spec st1 w x r Hb Hm Hw Hrr' Hl Hc) as (l & El & Dl);
      unfold rl_finish; rewrite El; cbn [bind]; eexists; split; [reflexivity|];
      split; [unfold stream_ok; cbn; split; [auto|discriminate]|];
      right; split; [constructor|]; split; [unfold remaining; cbn; rewrite skipn_nil; reflexivity|];
      unfold clean; cbn [filter]; rewrite app_nil_r; repeat split; auto; apply Dl).
  all: set (st1 := {| lr_rest := _ |}).
  all: assert (S1 : stream_ok N A st1)
    by (unfold stream_ok, st1; cbn [lr_eof lr_rest lr_chunk]; destruct Hs as [Hs1 Hs2];
        rewrite firstn_length in *;
        destruct (Nat.ltb_spec (Nat.min N (length (lr_rest st))) N) as [G|G];
        [ split; [intros _|discriminate]; split; [apply skipn_all2; lia|];
          intros HA; exfalso; destruct (lr_eof st); [destruct (Hs1 eq_refl) as [X _]; rewrite X in F0; cbn in F0; lia|];
          apply (Hs2 eq_refl) in HA as [k Hk]; destruct k as [|k]; [lia|]; cbn in Hk; nia
        | split; [intros Q; destruct (Hs1 Q) as [X _]; rewrite X in F0; cbn in F0; lia|];
          intros Q; rewrite (Hs2 Q), skipn_length; split; intros [k Hk];
          [destruct k as [|k]; [lia|exists k; cbn in Hk; lia]|exists (S k); cbn; lia] ]).
  all: destruct (Hgo st1) as (st' & E' & S' & D');
    [exact Hr|exact S1|unfold st1; cbn [lr_index lr_chunk]; lia
    |unfold st1; cbn [lr_rest]; rewrite skipn_length; rewrite firstn_length in F0; lia|].
  all: exists st'; split; [exact E'|]; split; [exact S'|].
  all: assert (Er1 : remaining st1 = lr_rest st) by (unfold remaining, st1; cbn [lr_index lr_chunk lr_rest]; rewrite skipn_O; apply firstn_skipn).
  all: rewrite Er1 in D'; destruct D' as [(a & b & K1 & K2 & K3 & K4 & K5)|D']; [left|right; exact D'].
  all: exists a, b; repeat split; auto; try apply K4.
  all: intros HA He; apply K5; auto; unfold st1; cbn [lr_eof];
    destruct S1 as [S1a _]; unfold st1 in S1a; cbn [lr_eof lr_chunk] in S1a;
    destruct (length (firstn N (lr_rest st)) <? N); [|exact He];
    destruct (S1a eq_refl) as [_ X]; rewrite (X HA) in F0; cbn in F0; lia.
Qed.

Lemma pieces_nonempty t : pieces t <> [].
Proof. destruct t as [|c t]; simpl; [discriminate|]. destruct (c =? LF)%Z; [discriminate|]. destruct (pieces t); discriminate. Qed.

Lemma pieces_noLF t : noLF t -> pieces t = [t].
Proof.
  induction t as [|c t IH]; intros H; simpl; [reflexivity|]. inversion H; subst.
  destruct (Z.eqb_spec c LF); [congruence|]. rewrite IH by assumption. reflexivity.
Qed.

Lemma pieces_app a b : noLF a -> pieces (a ++ LF :: b) = a :: pieces b.
Proof.
  induction a as [|c a IH]; intros H; simpl app; cbn [pieces].
  - reflexivity.
  - inversion H; subst. destruct (Z.eqb_spec c LF); [congruence|]. rewrite IH by assumption. reflexivity.
Qed.

Lemma text_lines_app a b : noLF a -> text_lines (a ++ LF :: b) = a :: text_lines b.
Proof.
  intros H. unfold text_lines. rewrite pieces_app by assumption.
  pose proof (pieces_nonempty b). destruct (pieces b) as [|p ps] eqn:E; [congruence|].
  change (last (a :: p :: ps) []) with (last (p :: ps) []).
  destruct (list_eq_dec Z.eq_dec (last (p :: ps) []) []); reflexivity.
Qed.

Lemma text_lines_noLF a : noLF a -> a <> [] -> text_lines a = [a].
Proof.
  intros H N. unfold text_lines. rewrite pieces_noLF by assumption. simpl.
  destruct (list_eq_dec Z.eq_dec a []); [congruence|reflexivity].
Qed.

Definition expected (a : bool) (st : line_reader) : list (list Z) :=
  if a && negb (lr_eof st) then pieces (remaining st) else text_lines (remaining st).

Lemma mem_holds_nil e w : mem_holds e w -> mem_holds e [].
Proof.
  intros (H1 & x & r & H2 & H3 & H4). split; [assumption|].
  destruct w as [|y w]; [exists x, r; repeat split; auto|].
  exists y, (w ++ x :: r). split; [exact H2|]. split; [constructor|].
  change (y :: w ++ x :: r) with ((y :: w) ++ x :: r). apply noLF_app. auto.
Qed.

Lemma read_lines_spec N fill (HN : 0 < N) (Hf : forall k, fill k <> LF) a fuel : forall st w,
  mem_holds (lr_line st) w -> stream_ok N (a = true) st ->
  length (remaining st) + 2 <= fuel ->
  exists out, read_lines N fill fuel st = OK out /\ Forall2 shows out (map clean (expected a st)).
Proof.
  induction fuel as [|fuel IH]; intros st w Hm Hs Hfu; [lia|].
  cbn [read_lines]. unfold read_line. cbn [lr_eof lr_chunk lr_index lr_rest].
  set (st0 := {| lr_rest := lr_rest st |}).
  destruct (lr_eof st && (length (lr_chunk st) <=? lr_index st)) eqn:E0.
  { apply andb_true_iff in E0 as [E1 E2]. cbn [bind]. exists []. split; [reflexivity|].
    unfold expected. rewrite E1, andb_false_r. destruct Hs as [Hs _]. destruct (Hs E1) as [Hr _].
    unfold remaining. rewrite Hr, skipn_all2 by lia. constructor. }
  destruct (rl_outer_spec N fill HN Hf (a = true) (length (lr_rest st) + 3) st0 []) as (st' & E & S' & D).
  { unfold reading, st0; cbn. repeat split; auto; [apply (mem_holds_nil _ _ Hm)|apply (mem_holds_nil _ _ Hm)]. }
  { exact Hs. }
  { unfold st0; cbn [lr_rest lr_chunk lr_index]. lia. }
  rewrite E. cbn [bind].
  assert (R0 : remaining st0 = remaining st) by reflexivity.
  destruct D as [(l & b & D1 & D2 & D3 & D4 & D5)|(D1 & D2 & D3 & D4 & D5)].
  - destruct D4 as [D4a D4b]. simpl app in *. rewrite R0 in D1.
    destruct (IH st' (clean l) D4a S') as (out & Eo & Ho).
    { rewrite D3. rewrite D1, app_length in Hfu. simpl in Hfu. lia. }
    rewrite Eo. cbn [bind]. eexists; split; [reflexivity|].
    assert (Ex : expected a st = l :: expected a st').
    { unfold expected. rewrite D1, D3. destruct a; cbn [andb].
      - destruct (lr_eof st) eqn:Ee; cbn [negb].
        + exfalso. destruct Hs as [Hs _]. destruct (Hs Ee) as [H1 H2]. unfold remaining in D1.
          rewrite H1, (H2 eq_refl), skipn_nil in D1. destruct l; discriminate.
        + rewrite (D5 eq_refl eq_refl). cbn [negb]. apply pieces_app. assumption.
      - apply text_lines_app. assumption. }
    rewrite Ex. cbn [map]. constructor; assumption.
  - destruct D5 as [D5a D5b]. simpl app in *. rewrite R0 in *.
    assert (Eo : read_lines N fill fuel st' = OK []).
    { destruct fuel as [|f]; [lia|]. cbn [read_lines]. unfold read_line. cbn [lr_eof lr_chunk lr_index].
      rewrite D3, D4. reflexivity. }
    rewrite Eo. cbn [bind]. eexists; split; [reflexivity|].
    assert (Ex : expected a st = [remaining st]).
    { unfold expected. destruct (a && negb (lr_eof st)) eqn:Ea; [apply pieces_noLF; assumption|].
      apply text_lines_noLF; [assumption|]. intros Hz.
      destruct Hs as [Hs1 Hs2]. apply app_eq_nil in Hz as [Hz1 Hz2].
      destruct (lr_eof st) eqn:Ee.
      - assert (length (lr_chunk st) <= lr_index st).
        { assert (X : length (skipn (lr_index st) (lr_chunk st)) = 0) by (rewrite Hz1; reflexivity).
          rewrite skipn_length in X. lia. }
        cbn [andb] in E0. apply Nat.leb_gt in E0. lia.
      - cbn [negb] in Ea. rewrite andb_true_r in Ea. subst a.
        assert (X : false = true) by (apply (Hs2 eq_refl); exists 0; rewrite Hz2; reflexivity). discriminate. }
    rewrite Ex. cbn [map]. constructor; [assumption|constructor].
Qed.

Lemma read_lines_new N fill file stack index fuel :
  0 < N -> (forall k, fill k <> LF) -> length stack = 82 -> noLF stack -> length file + 2 <= fuel ->
  exists out, read_lines N fill fuel (new_line_reader file stack index) = OK out /\
    Forall2 shows out (map clean (if length file mod N =? 0 then pieces file else text_lines file)).
Proof.
  intros HN Hf Hst Hlf Hfu.
  set (a := length file mod N =? 0).
  destruct (read_lines_spec N fill HN Hf a fuel (new_line_reader file stack index) []) as (out & E & H).
  - split; [exact Hst|]. destruct stack as [|x r]; [discriminate|]. exists x, r.
    unfold es_mem; cbn. rewrite app_nil_r. repeat split; auto. constructor.
  - unfold stream_ok; cbn. split; [discriminate|]. intros _. unfold a. rewrite Nat.eqb_eq. split.
    + intros E. exists (length file / N). pose proof (Nat.div_mod (length file) N ltac:(lia)). nia.
    + intros [k ->]. apply Nat.mod_mul. lia.
  - unfold remaining; cbn. rewrite skipn_nil. exact Hfu.
  - exists out. split; [exact E|]. unfold expected, remaining in H. cbn in H.
    rewrite skipn_nil, andb_true_r in H. exact H.
Qed.
