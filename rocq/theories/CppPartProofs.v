(** * Proofs about dro::D3plotPart *)
From Verif Require Import CBase CBaseFacts CppArrayModel CppArraySpec CppArrayProofs OwnModel OwnProofs CppPartModel CppPartSpec.

Definition frep (h : heap) (q : option ptr) (n : nat) (c : list Z) : Prop :=
  n = length c /\ match q with None => c = [] | Some (b, o) => o = 0 /\ nth_error h b = Some (Some c) end.
Definition pblocks (p : part) : list nat := ptr_blocks (p_data p).
Definition prep (h : heap) (p : part) (c : list (list Z)) : Prop :=
  length (p_data p) = 8 /\ length c = 8 /\ (forall f, f < 8 -> frep h (p_ptr p f) (p_count p f) (elements c f)) /\
  NoDup (pblocks p) /\ (elements c THICK_IDS = [] -> p_ptr p THICK_INDICES = None).

Lemma in_pblocks p b : In b (pblocks p) <-> exists f o, f < length (p_data p) /\ p_ptr p f = Some (b, o).
Proof.
  unfold pblocks, p_ptr. rewrite in_ptr_blocks. split.
  - intros (o & I). destruct (In_nth _ _ None I) as (f & L & Q). eauto.
  - intros (f & o & L & Q). exists o. rewrite <- Q. apply nth_In. exact L.
Qed.
Lemma ptr_blocks_inj l : NoDup (ptr_blocks l) -> forall f g b o o', nth f l None = Some (b, o) -> nth g l None = Some (b, o') -> f = g.
Proof.
  induction l as [|p l IH]; intros D f g b o o' Qf Qg; [destruct f; discriminate|].
  assert (Bl : forall g o, nth g l None = Some (b, o) -> In b (ptr_blocks l)).
  { intros g' o0 Q. apply in_ptr_blocks. exists o0. rewrite <- Q. apply nth_In. destruct (Nat.lt_ge_cases g' (length l)) as [L|L]; [exact L|]. rewrite nth_overflow in Q by exact L. discriminate. }
  assert (D' : NoDup (ptr_blocks l)) by (destruct p as [[b' o1]|]; cbn [ptr_blocks flat_map app] in D; [inversion D; assumption|exact D]).
  destruct f as [|f], g as [|g]; cbn [nth] in Qf, Qg; auto.
  - subst p. cbn [ptr_blocks flat_map app] in D. inversion D as [|? ? NI]; subst. exfalso. exact (NI (Bl g o' Qg)).
  - subst p. cbn [ptr_blocks flat_map app] in D. inversion D as [|? ? NI]; subst. exfalso. exact (NI (Bl f o Qf)).
  - f_equal. eapply IH; eauto.
Qed.

Lemma frep_frame h h' q n c : frep h q n c -> (forall b o, q = Some (b, o) -> nth_error h' b = nth_error h b) -> frep h' q n c.
Proof. intros (L & Q) F. split; [exact L|]. destruct q as [[b o]|]; [|exact Q]. destruct Q as (-> & Q). split; [reflexivity|]. rewrite (F b 0 eq_refl). exact Q. Qed.
Lemma prep_frame h h' a w : prep h a w -> (forall b, In b (pblocks a) -> nth_error h' b = nth_error h b) -> prep h' a w.
Proof.
  intros (L & Lc & R & D & T) F. split; [exact L|]. split; [exact Lc|]. split; [|split; [exact D|exact T]]. intros f Lf.
  apply (frep_frame h); [apply R; assumption|]. intros b o Q. apply F. apply in_pblocks. exists f, o. split; [lia|exact Q].
Qed.
Lemma prep_live h a w b : prep h a w -> In b (pblocks a) -> exists c, nth_error h b = Some (Some c).
Proof.
  intros (L & Lc & R & D & T) I. apply in_pblocks in I. destruct I as (f & o & Lf & Q). rewrite L in Lf. specialize (R f Lf). rewrite Q in R. destruct R as (_ & _ & N). eauto.
Qed.
Lemma prep_zero h : prep h part_zero no_elements.
Proof.
  split; [reflexivity|]. split; [reflexivity|]. split; [|split; [constructor|reflexivity]].
  intros f Lf. do 8 (destruct f as [|f]; [split; reflexivity|]). lia.
Qed.
Lemma zero_blocks : pblocks part_zero = [].
Proof. reflexivity. Qed.

Notation pinv := (inv pblocks prep).
Notation pcov := (covered pblocks).

(** ** read_part *)
Lemma adopt_arrays_ok : forall cs h, exists ext ps, adopt_arrays h cs = (h ++ ext, ps) /\ length ps = length cs /\
  (forall f c, nth_error cs f = Some c -> frep (h ++ ext) (nth f ps None) (length c) c /\ (c = [] -> nth f ps None = None)) /\
  (forall b, In b (ptr_blocks ps) -> length h <= b) /\ NoDup (ptr_blocks ps) /\
  (forall b x, nth_error ext b = Some x -> In (length h + b) (ptr_blocks ps)).
Proof.
  induction cs as [|c cs IH]; intros h.
  - exists [], []. rewrite app_nil_r. split; [reflexivity|]. split; [reflexivity|]. split; [intros [|f]; discriminate|]. split; [intros b []|]. split; [constructor|]. intros [|b]; discriminate.
  - destruct c as [|x c].
    + destruct (IH h) as (ext & ps & E & L & R & F & D & C). exists ext, (None :: ps). cbn [adopt_arrays]. rewrite E. split; [reflexivity|]. split; [cbn; congruence|]. split; [|cbn [ptr_blocks flat_map app]; auto].
      intros [|f] c Q; cbn [nth_error nth] in *; [injection Q as <-; repeat split|]. apply R. exact Q.
    + remember (x :: c) as c0. destruct (IH (h ++ [Some c0])) as (ext & ps & E & L & R & F & D & C).
      exists (Some c0 :: ext), (Some (length h, 0) :: ps). cbn [adopt_arrays]. rewrite Heqc0 at 1. unfold h_malloc. rewrite E. rewrite <- app_assoc in *. cbn [app] in *.
      rewrite app_length in F, C. cbn [length] in F, C.
      split; [reflexivity|]. split; [cbn; congruence|]. cbn [ptr_blocks flat_map app]. fold (ptr_blocks ps). split; [|split; [|split]].
      * intros [|f] c1 Q; cbn [nth_error nth] in *; [|apply R; exact Q]. injection Q as <-. split; [|rewrite Heqc0; discriminate].
        split; [reflexivity|]. split; [reflexivity|]. rewrite nth_error_app2, Nat.sub_diag by lia. reflexivity.
      * intros b [<-|I]; [lia|]. apply F in I. lia.
      * constructor; [|exact D]. intros I. apply F in I. lia.
      * intros [|b] y Q; [left; lia|]. right. cbn [nth_error] in Q. apply C in Q. replace (length h + S b) with (length h + 1 + b) by lia. exact Q.
Qed.

Lemma adopt_ok h c : is_part c -> exists ext p, part_adopt h c = (h ++ ext, p) /\ prep (h ++ ext) p c /\
  (forall b, In b (pblocks p) -> length h <= b) /\ (forall b x, nth_error ext b = Some x -> In (length h + b) (pblocks p)) /\
  (forall f, p_count p f = 0 -> p_ptr p f = None).
Proof.
  intros (L & N). destruct (adopt_arrays_ok c h) as (ext & ps & E & Lp & R & F & D & C). unfold part_adopt. rewrite E.
  eexists _, _. split; [reflexivity|].
  assert (Cnt : forall f, f < 8 -> p_count {| p_data := ps; p_num := map (@length Z) (firstn 4 c) |} f = length (elements c f)).
  { unfold p_count, elements in *. cbn [p_num]. intros f Lf. do 8 (destruct c as [|? c]; [discriminate|]).
    assert (Cs : f = 0 \/ f = 1 \/ f = 2 \/ f = 3 \/ f = 4 \/ f = 5 \/ f = 6 \/ f = 7) by lia.
    destruct Cs as [->|[->|[->|[->|[->|[->|[->| ->]]]]]]]; try reflexivity; [exact (N 0 ltac:(lia))|exact (N 1 ltac:(lia))|exact (N 2 ltac:(lia))|exact (N 3 ltac:(lia))]. }
  assert (Nth : forall f, f < 8 -> nth_error c f = Some (elements c f)) by (intros f Lf; apply nth_error_nth'; lia).
  split; [|split; [exact F|split; [exact C|]]].
  - split; [cbn; congruence|]. split; [exact L|]. split; [|split; [exact D|]].
    + intros f Lf. rewrite (Cnt f Lf). unfold p_ptr. cbn [p_data]. apply R. apply Nth. exact Lf.
    + intros T. unfold p_ptr. cbn [p_data]. apply (R THICK_INDICES (elements c THICK_INDICES)); [apply Nth; cbv; lia|].
      pose proof (N 1 ltac:(lia)) as Q. change (4 + 1) with THICK_INDICES in Q. change 1 with THICK_IDS in Q at 1. rewrite T in Q. destruct (elements c THICK_INDICES); [reflexivity|discriminate].
  - intros f Z. destruct (Nat.lt_ge_cases f 8) as [Lf|Lf].
    + rewrite (Cnt f Lf) in Z. unfold p_ptr. cbn [p_data]. apply (R f (elements c f)); [apply Nth; exact Lf|]. destruct (elements c f); [reflexivity|discriminate].
    + unfold p_ptr. cbn [p_data]. apply nth_overflow. lia.
Qed.

(** ** Copies *)
Lemma frep_slice h q n c : frep h q n c -> h_slice h q n = OK c.
Proof. intros (-> & Q). destruct q as [[b o]|]; [destruct Q as (-> & Q); apply slice_holds; exact Q|]. subst c. reflexivity. Qed.
Lemma frep_ext h e q n c : frep h q n c -> frep (h ++ e) q n c.
Proof.
  intros (L & Q). split; [exact L|]. destruct q as [[b o]|]; [|exact Q]. destruct Q as (-> & Q). split; [reflexivity|]. rewrite nth_error_app1; [exact Q|eapply nth_lt; eauto].
Qed.
Lemma copy_array_ok h e p c f : prep h p c -> f < 8 -> copy_array (h ++ e) p f = OK ((h ++ e) ++ [Some (elements c f)], Some (length (h ++ e), 0)).
Proof. intros (_ & _ & R & _) L. unfold copy_array. rewrite (frep_slice _ _ _ _ (frep_ext h e _ _ _ (R f L))). reflexivity. Qed.

Definition copy_ext (p : part) (c : list (list Z)) : list (option (list Z)) :=
  [Some (elements c 0); Some (malloc (p_count p 1)); Some (elements c 2); Some (elements c 3); Some (elements c 4); Some (elements c 1); Some (elements c 6); Some (elements c 7)].
Definition copied (h : heap) (p : part) : part :=
  {| p_data := [Some (length h, 0); Some (length h + 5, 0); Some (length h + 2, 0); Some (length h + 3, 0); Some (length h + 4, 0); p_ptr p 5; Some (length h + 6, 0); Some (length h + 7, 0)];
     p_num := p_num p |}.
Lemma part_copy_ok h p c : prep h p c -> part_copy h p = OK (h ++ copy_ext p c, copied h p).
Proof.
  intros R. unfold part_copy. rewrite <- (app_nil_r h) at 1. rewrite (copy_array_ok h [] p c SOLID_IDS R ltac:(cbv; lia)). cbn [bind]. rewrite app_nil_r.
  unfold h_malloc at 1.
  rewrite <- app_assoc. cbn [app]. rewrite (copy_array_ok h _ p c BEAM_IDS R ltac:(cbv; lia)). cbn [bind].
  rewrite <- app_assoc. cbn [app]. rewrite (copy_array_ok h _ p c SHELL_IDS R ltac:(cbv; lia)). cbn [bind].
  rewrite <- app_assoc. cbn [app]. rewrite (copy_array_ok h _ p c SOLID_INDICES R ltac:(cbv; lia)). cbn [bind].
  rewrite <- app_assoc. cbn [app]. rewrite (copy_array_ok h _ p c THICK_IDS R ltac:(cbv; lia)). cbn [bind].
  rewrite <- app_assoc. cbn [app]. rewrite (copy_array_ok h _ p c BEAM_INDICES R ltac:(cbv; lia)). cbn [bind].
  rewrite <- app_assoc. cbn [app]. rewrite (copy_array_ok h _ p c SHELL_INDICES R ltac:(cbv; lia)). cbn [bind].
  rewrite <- app_assoc. cbn [app]. pose proof R as (_ & _ & Rf & _). rewrite (frep_slice _ _ _ _ (frep_ext h _ _ _ _ (Rf THICK_INDICES ltac:(cbv; lia)))). cbn [bind].
  unfold copied, copy_ext. rewrite !app_length. cbn [length]. reflexivity.
Qed.
Lemma copied_rep h p c : prep h p c -> elements c THICK_IDS = [] -> prep (h ++ copy_ext p c) (copied h p) c /\ (forall b, In b (pblocks (copied h p)) -> length h <= b).
Proof.
  intros (L & Lc & R & D & T) E. specialize (T E). unfold THICK_INDICES in T.
  assert (Nx : forall k x, nth_error (copy_ext p c) k = Some x -> nth_error (h ++ copy_ext p c) (length h + k) = Some x).
  { intros k x Q. rewrite nth_error_app2 by lia. replace (length h + k - length h) with k by lia. exact Q. }
  assert (C : forall f, f < 8 -> p_count (copied h p) f = length (elements c f)) by (intros f Lf; exact (proj1 (R f Lf))).
  split; [split; [reflexivity|split; [exact Lc|split; [|split]]]|].
  - intros f Lf. split; [apply C; exact Lf|]. unfold p_ptr, copied. cbn [p_data].
    assert (Cs : f = 0 \/ f = 1 \/ f = 2 \/ f = 3 \/ f = 4 \/ f = 5 \/ f = 6 \/ f = 7) by lia.
    destruct Cs as [->|[->|[->|[->|[->|[->|[->| ->]]]]]]]; cbn [nth].
    6: { rewrite T. pose proof (R 5 ltac:(lia)) as (Q5 & _). pose proof (R 1 ltac:(lia)) as (Q1 & _). unfold p_count in *. change (5 mod 4) with (1 mod 4) in Q5. rewrite Q1 in Q5.
         unfold THICK_IDS in E. rewrite E in Q5. destruct (elements c 5); [reflexivity|discriminate]. }
    all: split; [reflexivity|].
    + rewrite <- (Nat.add_0_r (length h)). apply Nx. reflexivity.
    + apply (Nx 5). reflexivity.
    + apply (Nx 2). reflexivity.
    + apply (Nx 3). reflexivity.
    + apply (Nx 4). reflexivity.
    + apply (Nx 6). reflexivity.
    + apply (Nx 7). reflexivity.
  - unfold pblocks, copied. cbn [p_data]. rewrite T. cbn [ptr_blocks flat_map app]. repeat (constructor; [cbn [In]; lia|]). constructor.
  - intros _. unfold copied, p_ptr. cbn [p_data]. exact T.
  - unfold pblocks, copied. cbn [p_data]. rewrite T. cbn [ptr_blocks flat_map app In]. lia.
Qed.

(** ** Elements *)
Lemma view_destroy h p f : arr_destroy h (part_view p f) = OK h.
Proof. unfold arr_destroy, part_view. cbn [a_data a_del]. destruct (p_ptr p f); reflexivity. Qed.
Lemma store_eta (s : store part) : {| st_heap := st_heap s; st_objs := st_objs s |} = s.
Proof. destruct s; reflexivity. Qed.
Lemma view_read h p c f k x : prep h p c -> f < 8 -> nth_error (elements c f) k = Some x -> arr_get h (part_view p f) k = OK (Value x).
Proof.
  intros (_ & _ & R & _) L Q. destruct (R f L) as (E & N). unfold arr_get, part_view. cbn [a_size a_data]. rewrite get_range, E.
  pose proof (nth_lt _ _ _ Q) as Lk. replace (k <? length (elements c f)) with true by (symmetry; apply Nat.ltb_lt; exact Lk). cbn [negb].
  destruct (p_ptr p f) as [[b o]|]; [|rewrite N in Lk; cbn in Lk; lia]. destruct N as (-> & N). rewrite (read_holds h b _ k x N Q). reflexivity.
Qed.
Lemma view_range h p c f k : prep h p c -> f < 8 -> length (elements c f) <= k -> forall x, arr_get h (part_view p f) k = OK Thrown /\ arr_set h (part_view p f) k x = OK (h, Thrown).
Proof.
  intros (_ & _ & R & _) L Q x. destruct (R f L) as (E & N). unfold arr_get, arr_set, part_view. cbn [a_size a_data]. rewrite get_range, E.
  replace (k <? length (elements c f)) with false by (symmetry; apply Nat.ltb_ge; exact Q). split; reflexivity.
Qed.
Lemma view_write h p c f k x : prep h p c -> f < 8 -> k < length (elements c f) ->
  exists b, arr_set h (part_view p f) k x = OK (replace h b (Some (replace (elements c f) k x)), Nothing) /\
    In b (pblocks p) /\ b < length h /\ prep (replace h b (Some (replace (elements c f) k x))) p (replace c f (replace (elements c f) k x)).
Proof.
  intros R0 L Q. pose proof R0 as (Lp & Lc & R & D & T). destruct (R f L) as (E & N). destruct (p_ptr p f) as [[b o]|] eqn:P; [|rewrite N in Q; cbn in Q; lia]. destruct N as (-> & N).
  pose proof (nth_lt _ _ _ N) as Lb. exists b. split; [|split; [|split; [exact Lb|]]].
  - unfold arr_set, part_view. cbn [a_size a_data]. rewrite get_range, E. replace (k <? length (elements c f)) with true by (symmetry; apply Nat.ltb_lt; exact Q). cbn [negb].
    rewrite P. unfold h_write. rewrite (proj2 (aget_OK _ _ _) N). cbn [bind plus]. rewrite aset_replace by exact Q. cbn [bind]. rewrite aset_replace by exact Lb. reflexivity.
  - apply in_pblocks. exists f, 0. split; [lia|exact P].
  - assert (El : forall g, elements (replace c f (replace (elements c f) k x)) g = if g =? f then replace (elements c f) k x else elements c g).
    { intros g. unfold elements at 1. destruct (Nat.eqb_spec g f) as [->|Ne].
      - erewrite nth_error_nth; [reflexivity|]. apply nth_replace_eq. lia.
      - unfold elements. destruct (nth_error c g) as [y|] eqn:Q'.
        + erewrite nth_error_nth; [|rewrite nth_replace_neq by auto; exact Q']. symmetry. apply nth_error_nth. exact Q'.
        + apply nth_error_None in Q'. rewrite !nth_overflow; auto. rewrite replace_length. exact Q'. }
    split; [exact Lp|]. split; [rewrite replace_length; exact Lc|]. split; [|split; [exact D|]].
    + intros g Lg. rewrite El. destruct (Nat.eqb_spec g f) as [->|Ne].
      * split; [rewrite replace_length; exact E|]. rewrite P. split; [reflexivity|]. apply nth_replace_eq. exact Lb.
      * apply (frep_frame h); [apply R; exact Lg|]. intros b' o' P'. apply nth_replace_neq. intros ->. apply Ne. unfold p_ptr in P, P'. exact (ptr_blocks_inj _ D _ _ _ _ _ P' P).
    + rewrite El. intros Z0. apply T. destruct (Nat.eqb_spec THICK_IDS f) as [->|Ne]; [|exact Z0]. apply (f_equal (@length Z)) in Z0. rewrite replace_length in Z0. destruct (elements c f); [reflexivity|discriminate].
Qed.

(** ** Destruction *)
Lemma destroy_ok h p c : prep h p c -> exists h', part_destroy h p = OK h' /\
  (forall b, In b (pblocks p) -> nth_error h' b = Some None) /\ (forall b, ~ In b (pblocks p) -> nth_error h' b = nth_error h b).
Proof.
  intros (Lp & Lc & R & D & T). unfold part_destroy.
  replace [p_ptr p SOLID_IDS; p_ptr p THICK_IDS; p_ptr p BEAM_IDS; p_ptr p SHELL_IDS; p_ptr p SOLID_INDICES; p_ptr p THICK_INDICES; p_ptr p BEAM_INDICES; p_ptr p SHELL_INDICES] with (p_data p).
  2: { unfold p_ptr. destruct p as [l n]. cbn [p_data] in *. do 8 (destruct l as [|? l]; [discriminate|]). destruct l; [reflexivity|discriminate]. }
  destruct (free_all_ok (p_data p) h D) as (h' & E & _ & F & G).
  - intros b o I. destruct (In_nth _ _ None I) as (f & Lf & Q). rewrite Lp in Lf. destruct (R f Lf) as (_ & N). unfold p_ptr in N. rewrite Q in N. destruct N. eauto.
  - exists h'. auto.
Qed.

(** ** Steps *)
Definition tight (s : store part) : Prop := forall j p f, nth_error (st_objs s) j = Some (Some p) -> p_count p f = 0 -> p_ptr p f = None.

Lemma tight_new s h a : tight s -> (forall f, p_count a f = 0 -> p_ptr a f = None) -> tight (new_obj s h a).
Proof. intros Ti Ta j p f Q. cbn [new_obj st_objs] in Q. destruct (nth_snoc _ _ _ _ Q) as [[L Q']|[_ [= ->]]]; [eapply Ti; eauto|apply Ta]. Qed.
Lemma tight_put s h j a : tight s -> (forall p f, a = Some p -> p_count p f = 0 -> p_ptr p f = None) -> tight {| st_heap := h; st_objs := replace (st_objs s) j a |}.
Proof.
  intros Ti Ta i p f Q. cbn [st_objs] in Q. destruct (Nat.eq_dec j i) as [->|N]; [|rewrite nth_replace_neq in Q by exact N; eapply Ti; eauto].
  destruct (Nat.lt_ge_cases i (length (st_objs s))) as [L|L].
  - rewrite nth_replace_eq in Q by exact L. injection Q as ->. apply Ta. reflexivity.
  - apply nth_lt in Q. rewrite replace_length in Q. lia.
Qed.
Lemma zero_tight f : p_count part_zero f = 0 -> p_ptr part_zero f = None.
Proof. intros _. unfold p_ptr, part_zero. cbn [p_data]. do 8 (destruct f as [|f]; [reflexivity|]). destruct f; reflexivity. Qed.
Lemma tight_empty s v j a : pinv s v -> tight s -> nth_error (st_objs s) j = Some (Some a) -> nth_error v j = Some (Some no_elements) -> pblocks a = [].
Proof.
  intros (L & R & _) Ti Q N. pose proof (R _ _ _ Q N) as (Lp & _ & Rf & _). destruct (pblocks a) as [|b l] eqn:E; [reflexivity|].
  assert (I : In b (pblocks a)) by (rewrite E; left; reflexivity). apply in_pblocks in I. destruct I as (f & o & Lf & P). rewrite Lp in Lf. destruct (Rf f Lf) as (C & _).
  rewrite (Ti j a f Q) in P; [discriminate|]. rewrite C. unfold elements, no_elements. do 8 (destruct f as [|f]; [reflexivity|]). lia.
Qed.

Lemma replace_same {A} (l : list A) j x : nth_error l j = Some x -> replace l j x = l.
Proof. revert j. induction l as [|y l IH]; intros [|j] Q; cbn in *; try discriminate; [congruence|f_equal; auto]. Qed.

Lemma pstep_ok s v o r v' : pinv s v -> pvstep v o r v' -> copy_fits v o -> exists s', pstep s o = OK (s', r) /\ pinv s' v' /\
  (pcov s -> tight s -> no_copy_no_overwrite v o -> pcov s' /\ tight s').
Proof.
  intros I St CF. destruct St as [c P|j c N|j c N|i j c d N Ni Ne|i j c d N Ni|j f k c x N Lf Q|j f k c N Lf Q|j f k x c N Lf Q|j f k x c N Lf Q|j f c N Lf|j c N]; cbn [pstep].
  - destruct (adopt_ok (st_heap s) c P) as (ext & p & -> & R & F & C & Ti). eexists. split; [reflexivity|]. split.
    + apply inv_fresh; auto; [exact prep_frame|exact prep_live].
    + intros Cv T _. split; [apply covered_fresh; [exact Cv|]; intros b x Q; eapply C; exact Q|apply tight_new; assumption].
  - destruct (inv_get pblocks prep s v j c I N) as (a & Qa & Ra & ->). cbn [bind part_move]. unfold put_obj. rewrite aset_replace by (eapply nth_lt; eauto). cbn [bind].
    eexists. split; [reflexivity|]. unfold new_obj. cbn [st_heap st_objs]. split.
    + eapply inv_move_new; eauto; [exact prep_frame|exact prep_live|apply prep_zero].
    + intros Cv T _. split; [apply covered_move_new; assumption|].
      intros i p f Q. cbn [st_objs] in Q. destruct (nth_snoc _ _ _ _ Q) as [[L Q']|[_ [= ->]]]; [|eapply T; eauto].
      revert Q'. apply (tight_put s (st_heap s) j (Some part_zero) T). intros p0 f0 [= <-]. apply zero_tight.
  - destruct (inv_get pblocks prep s v j c I N) as (a & Qa & Ra & ->). cbn [bind]. rewrite (part_copy_ok _ a c Ra). cbn [bind].
    assert (E : elements c THICK_IDS = []) by (eapply (proj1 CF); [left; reflexivity|exact N]).
    destruct (copied_rep _ _ _ Ra E) as (R & F). eexists. split; [reflexivity|]. split.
    + apply inv_fresh; auto; [exact prep_frame|exact prep_live].
    + intros _ _ (NC & _). exfalso. apply (NC j). left. reflexivity.
  - destruct (inv_get pblocks prep s v j c I N) as (a & Qa & Ra & ->). destruct (inv_get pblocks prep s v i d I Ni) as (ai & Qi & Ri & ->). cbn [bind].
    destruct (Nat.eqb_spec i j) as [|_]; [contradiction|]. cbn [part_move]. unfold put_obj. rewrite aset_replace by (eapply nth_lt; eauto). cbn [bind st_objs st_heap].
    rewrite aset_replace by (rewrite replace_length; eapply nth_lt; eauto). cbn [bind]. eexists. split; [reflexivity|]. split.
    + eapply inv_move_to; eauto; [exact prep_frame|exact prep_live|eapply nth_lt; eauto|apply prep_zero].
    + intros Cv T (_ & NO). pose proof (NO i j d eq_refl Ni) as ->. split.
      * eapply covered_move_to; eauto. exact (tight_empty _ _ _ _ I T Qi Ni).
      * apply (tight_put {| st_heap := st_heap s; st_objs := replace (st_objs s) i (Some a) |}); [|intros p f [= <-]; apply zero_tight].
        apply tight_put; [exact T|]. intros p f [= <-]. eapply T; eauto.
  - destruct (inv_get pblocks prep s v j c I N) as (a & Qa & Ra & ->). destruct (inv_get pblocks prep s v i d I Ni) as (ai & Qi & Ri & ->). cbn [bind].
    destruct (Nat.eqb_spec i j) as [->|Ne]; [exfalso; exact (proj2 CF j eq_refl)|]. rewrite (part_copy_ok _ a c Ra). cbn [bind].
    assert (E : elements c THICK_IDS = []) by (eapply (proj1 CF); [right; exists i; reflexivity|exact N]).
    destruct (copied_rep _ _ _ Ra E) as (R & F). unfold put_obj. rewrite aset_replace by (eapply nth_lt; eauto). cbn [bind]. eexists. split; [reflexivity|]. split.
    + apply inv_fresh_put; auto; [exact prep_frame|exact prep_live|eapply nth_lt; eauto].
    + intros _ _ (NC & _). exfalso. apply (NC j). right. exists i. reflexivity.
  - destruct (inv_get pblocks prep s v j c I N) as (a & Qa & Ra & ->). cbn [bind]. rewrite (view_read _ _ _ _ _ _ Ra Lf Q). cbn [bind]. rewrite view_destroy. cbn [bind]. rewrite store_eta. eauto.
  - destruct (inv_get pblocks prep s v j c I N) as (a & Qa & Ra & ->). cbn [bind]. rewrite (proj1 (view_range _ _ _ _ _ Ra Lf Q 0%Z)). cbn [bind]. rewrite view_destroy. cbn [bind]. rewrite store_eta. eauto.
  - destruct (inv_get pblocks prep s v j c I N) as (a & Qa & Ra & ->). cbn [bind]. destruct (view_write _ _ _ _ _ x Ra Lf Q) as (b & -> & Ib & Lb & R). cbn [bind]. rewrite view_destroy. cbn [bind].
    eexists. split; [reflexivity|]. split.
    + eapply (inv_update pblocks prep prep_frame prep_live); eauto. eapply (nth_lt v); eauto.
    + intros Cv T _. split; [apply covered_update; [exact Cv|exact (prep_live _ _ _ _ Ra Ib)]|]. exact T.
  - destruct (inv_get pblocks prep s v j c I N) as (a & Qa & Ra & ->). cbn [bind]. rewrite (proj2 (view_range _ _ _ _ _ Ra Lf Q x)). cbn [bind]. rewrite view_destroy. cbn [bind].
    exists s. split; [destruct s; reflexivity|]. auto.
  - destruct (inv_get pblocks prep s v j c I N) as (a & Qa & Ra & ->). cbn [bind]. rewrite view_destroy. cbn [bind part_view a_size]. rewrite store_eta.
    pose proof Ra as (_ & _ & R & _). rewrite (proj1 (R f Lf)). eauto.
  - destruct (inv_get pblocks prep s v j c I N) as (a & Qa & Ra & ->). cbn [bind]. destruct (destroy_ok _ _ _ Ra) as (h & -> & F & G). cbn [bind].
    unfold put_obj. rewrite aset_replace by (eapply nth_lt; eauto). cbn [bind]. eexists. split; [reflexivity|]. split.
    + eapply inv_destroy; eauto; [exact prep_frame|exact prep_live].
    + intros Cv T _. split; [eapply covered_destroy; eauto|]. apply tight_put; [exact T|]. discriminate.
Qed.

Lemma pvstep_det v o r v1 r' v2 : pvstep v o r v1 -> pvstep v o r' v2 -> v1 = v2.
Proof. intros A B. inversion A; subst; inversion B; subst; try congruence; repeat match goal with H : nth_error ?a ?b = Some (Some _), H' : nth_error ?a ?b = Some (Some _) |- _ => rewrite H in H'; injection H' as <- end; lia. Qed.

Lemma prun_ok : forall prog s v rs v', pinv s v -> pvrun v prog rs v' -> all_along copy_fits v prog -> exists s', prun s prog = OK (s', rs) /\ pinv s' v' /\
  (pcov s -> tight s -> all_along no_copy_no_overwrite v prog -> pcov s').
Proof.
  induction prog as [|o prog IH]; intros s v rs v' I R CF.
  - inversion R; subst. exists s. split; [reflexivity|]. auto.
  - inversion R as [|v0 o0 r v1 t rs' v2 S1 R1]; subst. inversion CF as [|v0 o0 r' v1' t' Cf S1' CF1]; subst. pose proof (pvstep_det _ _ _ _ _ _ S1 S1') as <-.
    destruct (pstep_ok s v o r v1 I S1 Cf) as (s1 & Q1 & I1 & C1). destruct (IH s1 v1 rs' v' I1 R1 CF1) as (s2 & Q2 & I2 & C2).
    exists s2. unfold prun in *. cbn [exec]. rewrite Q1. cbn [bind]. fold (exec pstep). rewrite Q2. cbn [bind]. split; [reflexivity|]. split; [exact I2|].
    intros Cv T NC. inversion NC as [|v0 o0 r'' v1'' t' No S1'' N1]; subst. pose proof (pvstep_det _ _ _ _ _ _ S1 S1'') as <-.
    destruct (C1 Cv T No). auto.
Qed.
Lemma fits_of_no_copy v prog : all_along no_copy_no_overwrite v prog -> all_along copy_fits v prog.
Proof.
  induction 1 as [v|v o r v' t (NC & _) S1 _ IH]; [constructor|]. eapply PA_step; [|exact S1|exact IH]. split.
  - intros j c Cp. exfalso. exact (NC j Cp).
  - intros i ->. apply (NC i). right. exists i. reflexivity.
Qed.
