(** * Proofs about handles, messages and names *)
From Coq Require Import Permutation.
From Verif Require Import CBase CBaseFacts CppArrayModel CppArraySpec CppArrayProofs OwnModel OwnSpec OwnProofs CppTransformModel CppTransformSpec CppTransformProofs HandleModel HandleSpec.

(** ** Pointers that may be freed *)
Definition good (h : heap) (ps : list (option ptr)) : Prop :=
  NoDup (ptr_blocks ps) /\ forall b o, In (Some (b, o)) ps -> o = 0 /\ exists c, nth_error h b = Some (Some c).
Lemma good_live h ps b : good h ps -> In b (ptr_blocks ps) -> exists c, nth_error h b = Some (Some c).
Proof. intros (_ & H) I. apply in_ptr_blocks in I. destruct I as (o & I). apply (H b o I). Qed.
Lemma good_frame h h' ps : good h ps -> (forall b, In b (ptr_blocks ps) -> nth_error h' b = nth_error h b) -> good h' ps.
Proof.
  intros (D & H) F. split; [exact D|]. intros b o I. destruct (H b o I) as (-> & c & Q). split; [reflexivity|]. exists c. rewrite F; [exact Q|]. apply in_ptr_blocks. eauto.
Qed.
Lemma good_app h p q : good h (p ++ q) -> good h p /\ good h q /\ (forall b, In b (ptr_blocks p) -> ~ In b (ptr_blocks q)).
Proof.
  intros (D & H). rewrite ptr_blocks_app in D. destruct (nodup_app _ _ D) as (D1 & D2 & X). split; [|split; [|exact X]]; (split; [assumption|]); intros b o I; apply (H b o); apply in_app_iff; auto.
Qed.
Lemma good_join h p q : good h p -> good h q -> (forall b, In b (ptr_blocks p) -> ~ In b (ptr_blocks q)) -> good h (p ++ q).
Proof.
  intros (D1 & H1) (D2 & H2) X. split; [rewrite ptr_blocks_app; apply nodup_join; assumption|]. intros b o I. apply in_app_iff in I. destruct I; eauto.
Qed.
Lemma blocks_perm p q : Permutation p q -> Permutation (ptr_blocks p) (ptr_blocks q).
Proof. intros P. unfold ptr_blocks. apply Permutation_flat_map. exact P. Qed.
Lemma good_perm h p q : Permutation p q -> good h p -> good h q.
Proof. intros P (D & H). split; [eapply Permutation_NoDup; [apply blocks_perm; exact P|exact D]|]. intros b o I. apply (H b o). eapply Permutation_in; [apply Permutation_sym; exact P|exact I]. Qed.
Lemma free_all_app : forall p q h, h_free_all h (p ++ q) = do h <- h_free_all h p; h_free_all h q.
Proof. induction p as [|x p IH]; intros q h; [reflexivity|]. cbn [app h_free_all]. destruct (h_free_opt h x); cbn [bind]; auto. Qed.
Lemma good_free h ps : good h ps -> exists h', h_free_all h ps = OK h' /\ length h' = length h /\
  (forall b, In b (ptr_blocks ps) -> nth_error h' b = Some None) /\ (forall b, ~ In b (ptr_blocks ps) -> nth_error h' b = nth_error h b).
Proof. intros (D & H). apply free_all_ok; assumption. Qed.
Lemma good_free_app h p q : good h (p ++ q) -> exists h', h_free_all h p = OK h' /\ good h' q /\ length h' = length h /\
  (forall b, ~ In b (ptr_blocks p) -> nth_error h' b = nth_error h b).
Proof.
  intros G. destruct (good_app _ _ _ G) as (G1 & G2 & X). destruct (good_free _ _ G1) as (h' & E & L & _ & F). exists h'. split; [exact E|]. split; [|auto].
  eapply good_frame; [exact G2|]. intros b I. apply F. intros I1. exact (X b I1 I).
Qed.
Lemma read_live h b o c : nth_error h b = Some (Some c) -> str_read h (Some (b, o)) = OK (skipn o c).
Proof. intros Q. unfold str_read. rewrite (proj2 (aget_OK _ _ _) Q). reflexivity. Qed.

(** ** Growing memory: the pointers are exactly the new blocks *)
Record grow (h h' : heap) (ps : list (option ptr)) : Prop := {
  gr_len : length h <= length h';
  gr_old : forall b, b < length h -> nth_error h' b = nth_error h b;
  gr_nodup : NoDup (ptr_blocks ps);
  gr_off : forall b o, In (Some (b, o)) ps -> o = 0;
  gr_all : forall b, In b (ptr_blocks ps) <-> length h <= b < length h';
  gr_live : forall b, length h <= b < length h' -> exists c, nth_error h' b = Some (Some c) }.
Lemma grow_nil h : grow h h [].
Proof. split; auto; try lia; try constructor; cbn; try tauto; intros; lia. Qed.
Lemma grow_one h c : grow h (h ++ [Some c]) [Some (length h, 0)].
Proof.
  split.
  - rewrite app_length. lia.
  - intros b L. apply nth_error_app1. exact L.
  - cbn. repeat constructor; intros [].
  - intros b o [[= <- <-]|[]]. reflexivity.
  - intros b. cbn. rewrite app_length. cbn. lia.
  - intros b L. rewrite app_length in L. cbn in L. exists c. replace b with (length h) by lia. rewrite nth_error_app2, Nat.sub_diag by lia. reflexivity.
Qed.
Lemma grow_none h h' ps : grow h h' ps -> grow h h' (None :: ps).
Proof. intros [A B C D E F]. split; auto. intros b o [Q|I]; [discriminate|eauto]. Qed.
Lemma grow_app h h1 h2 p q : grow h h1 p -> grow h1 h2 q -> grow h h2 (p ++ q).
Proof.
  intros [A B C D E F] [A' B' C' D' E' F']. split.
  - lia.
  - intros b L. rewrite B' by lia. auto.
  - rewrite ptr_blocks_app. apply nodup_join; auto. intros b I I'. apply E in I. apply E' in I'. lia.
  - intros b o I. apply in_app_iff in I. destruct I; eauto.
  - intros b. rewrite ptr_blocks_app, in_app_iff, E, E'. lia.
  - intros b L. destruct (Nat.lt_ge_cases b (length h1)) as [L1|L1]; [rewrite B' by exact L1; apply F; lia|apply F'; lia].
Qed.
Lemma grow_perm h h' p q : Permutation p q -> grow h h' p -> grow h h' q.
Proof.
  intros P [A B C D E F]. pose proof (blocks_perm _ _ P) as Pb. split; auto.
  - eapply Permutation_NoDup; eauto.
  - intros b o I. apply (D b o). eapply Permutation_in; [apply Permutation_sym; exact P|exact I].
  - intros b. rewrite <- E. split; intros I; (eapply Permutation_in; [|exact I]); [apply Permutation_sym|]; exact Pb.
Qed.
Lemma grow_good h h' ps : grow h h' ps -> good h' ps.
Proof.
  intros [A B C D E F]. split; [exact C|]. intros b o I. split; [eauto|]. apply F. apply E. apply in_ptr_blocks. eauto.
Qed.
Lemma grow_malloc h c h' p : h_malloc h c = (h', p) -> grow h h' [Some p] /\ nth_error h' (fst p) = Some (Some c).
Proof. intros [= <- <-]. split; [apply grow_one|]. cbn [fst]. rewrite nth_error_app2, Nat.sub_diag by lia. reflexivity. Qed.
Lemma grow_keep h h' ps b c : grow h h' ps -> nth_error h b = Some (Some c) -> nth_error h' b = Some (Some c).
Proof. intros G Q. rewrite (gr_old _ _ _ G); [exact Q|eapply nth_lt; eauto]. Qed.
Lemma grow_srep h h' ps p s : grow h h' ps -> srep h p s -> srep h' p s.
Proof. intros G R. eapply srep_frame; [exact R|]. intros b I. destruct p as [[b' o]|]; [|destruct I]. destruct I as [<-|[]]. destruct s; [|destruct R]. destruct R as (_ & Q). rewrite Q. eapply grow_keep; eauto. Qed.
Lemma grow_sreps h h' ps qs ss : grow h h' ps -> Forall2 (srep h) qs ss -> Forall2 (srep h') qs ss.
Proof. intros G F. induction F; constructor; auto. eapply grow_srep; eauto. Qed.
Lemma grow_strings ss h h' ps : alloc_strings h ss = (h', ps) -> grow h h' ps /\ Forall2 (srep h') ps ss.
Proof.
  revert h h' ps. induction ss as [|s ss IH]; intros h h' ps E; cbn [alloc_strings] in E.
  - injection E as <- <-. split; [apply grow_nil|constructor].
  - destruct s as [c|].
    + unfold h_malloc in E. destruct (alloc_strings (h ++ [Some c]) ss) as [h1 ps1] eqn:E1. injection E as <- <-. destruct (IH _ _ _ E1) as (G & F). split.
      * apply (grow_app _ _ _ [Some (length h, 0)] ps1 (grow_one h c) G).
      * constructor; [|exact F]. apply (grow_srep _ _ _ _ _ G). split; [reflexivity|]. rewrite nth_error_app2, Nat.sub_diag by lia. reflexivity.
    + destruct (alloc_strings h ss) as [h1 ps1] eqn:E1. injection E as <- <-. destruct (IH _ _ _ E1) as (G & F). split; [apply grow_none; exact G|constructor; [exact Logic.I|exact F]].
Qed.

(** ** Files *)
Definition mf_ptrs (l : list mfile) : list (option ptr) := flat_map (fun f => [f_path f; f_handles f]) l.
Lemma mfiles_open_ok n : forall h h' fs, mfiles_open n h = (h', fs) -> grow h h' (mf_ptrs fs) /\ length fs = n.
Proof.
  induction n as [|n IH]; intros h h' fs E; cbn [mfiles_open] in E.
  - injection E as <- <-. split; [apply grow_nil|reflexivity].
  - unfold mfile_open, h_malloc in E. destruct (mfiles_open n ((h ++ [Some []]) ++ [Some []])) as [h1 f1] eqn:E1. injection E as <- <-. destruct (IH _ _ _ E1) as (G & L). split; [|cbn; congruence].
    cbn [mf_ptrs flat_map f_path f_handles]. change ([Some (length h, 0); ?q] ++ ?t) with ([Some (length h, 0)] ++ ([q] ++ t)). apply (grow_app _ (h ++ [Some []])); [apply grow_one|]. apply (grow_app _ ((h ++ [Some []]) ++ [Some []])); [apply grow_one|exact G].
Qed.
Lemma mfiles_close_ok l : forall h arr, good h (mf_ptrs l) -> (l <> [] -> exists b o c, arr = Some (b, o) /\ nth_error h b = Some (Some c) /\ ~ In b (ptr_blocks (mf_ptrs l))) ->
  mfiles_close h arr l = h_free_all h (mf_ptrs l).
Proof.
  induction l as [|f l IH]; intros h arr G A; [reflexivity|]. cbn [mfiles_close]. destruct (A ltac:(discriminate)) as (b & o & c & -> & Q & NI).
  rewrite (read_live _ _ _ _ Q). cbn [bind]. cbn [mf_ptrs flat_map] in *. fold (mf_ptrs l) in *. rewrite free_all_app. unfold mfile_close.
  destruct (good_free_app _ _ _ G) as (h1 & E & G1 & _ & F). rewrite E. cbn [bind]. apply IH; [exact G1|]. intros _. exists b, o, c. rewrite ptr_blocks_app, in_app_iff in NI. split; [reflexivity|]. split; [rewrite F by tauto; exact Q|tauto].
Qed.

(** ** The d3plot handle *)
Definition d_ptrs (a : d3h) : list (option ptr) := mf_ptrs (d_list a) ++ [d_files a; d_buf_err a; d_root a] ++ [d_data a; d_err a; d_init a; d_init32 a].
Definition d_ok (a : d3h) : Prop := d_list a <> [] -> d_files a <> None.
Lemma d3_close_ok h a : good h (d_ptrs a) -> d_ok a -> exists h', d3_close h a = OK (h', {| d_files := None; d_list := []; d_buf_err := None; d_root := None; d_data := d_data a; d_err := None; d_init := d_init a; d_init32 := d_init32 a |}) /\
  length h' = length h /\ (forall b, In b (ptr_blocks (d_ptrs a)) -> nth_error h' b = Some None) /\ (forall b, ~ In b (ptr_blocks (d_ptrs a)) -> nth_error h' b = nth_error h b).
Proof.
  intros G K. destruct (good_free _ _ G) as (h' & E & L & F & Fr). exists h'. split; [|auto]. unfold d3_close. unfold d_ptrs in E. rewrite free_all_app in E.
  destruct (good_app _ _ _ G) as (G1 & G2 & X).
  rewrite mfiles_close_ok; [|exact G1|].
  - destruct (h_free_all h (mf_ptrs (d_list a))) as [h1| | ]; cbn [bind] in *; try discriminate. rewrite free_all_app in E. destruct (h_free_all h1 [d_files a; d_buf_err a; d_root a]) as [h2| | ]; cbn [bind] in *; try discriminate. rewrite E. reflexivity.
  - intros N. specialize (K N). destruct (d_files a) as [[b o]|] eqn:Q; [|congruence]. destruct G2 as (_ & H2). destruct (H2 b o (or_introl eq_refl)) as (-> & c & Qb). exists b, 0, c. split; [reflexivity|]. split; [exact Qb|].
    intros I. apply (X b I). cbn. left. reflexivity.
Qed.
Lemma d3_open_ok h n bf r h' a : d3_open h n bf r = (h', a) -> grow h h' (d_ptrs a) /\ d_ok a /\ srep h' (d_err a) r /\ (r = None -> d_data a <> None).
Proof.
  intros E. unfold d3_open, h_malloc in E. destruct (mfiles_open n ((h ++ [Some []]) ++ [Some []])) as [h1 fs] eqn:E1. destruct (mfiles_open_ok _ _ _ _ E1) as (G1 & _).
  set (ss := [_; _; r]) in E. destruct (alloc_strings h1 ss) as [h2 ps] eqn:E2. injection E as <- <-. destruct (grow_strings _ _ _ _ E2) as (G2 & F2).
  unfold ss in F2. inversion F2 as [|p0 ? q0 ? R0 F3]; subst. inversion F3 as [|p1 ? q1 ? R1 F4]; subst. inversion F4 as [|p2 ? q2 ? R2 F5]; subst. inversion F5; subst. cbn [nth] in *. clear F2 F3 F4 F5.
  split; [|split; [|split]].
  - unfold d_ptrs. cbn [d_list d_files d_buf_err d_root d_data d_err d_init d_init32].
    assert (G : grow h h2 ([Some (length h, 0)] ++ [Some (length (h ++ [Some []]), 0)] ++ mf_ptrs fs ++ [p0; p1; p2])).
    { apply (grow_app _ (h ++ [Some []])); [apply grow_one|]. apply (grow_app _ ((h ++ [Some []]) ++ [Some []])); [apply grow_one|]. apply (grow_app _ h1); assumption. }
    apply grow_none in G. apply grow_none in G. revert G. apply grow_perm. cbn [app].
    transitivity (mf_ptrs fs ++ [None; None; Some (length h, 0); Some (length (h ++ [Some []]), 0); p0; p1; p2]).
    + change (?a :: ?b :: ?c :: ?d :: mf_ptrs fs ++ ?l) with ([a; b; c; d] ++ (mf_ptrs fs ++ l)). rewrite app_assoc.
      transitivity ((mf_ptrs fs ++ [None; None; Some (length h, 0); Some (length (h ++ [Some []]), 0)]) ++ [p0; p1; p2]); [apply Permutation_app_tail; apply Permutation_app_comm|].
      rewrite <- app_assoc. apply Permutation_refl.
    + apply Permutation_app_head. generalize (Some (length h, 0)), (Some (length (h ++ [@Some (list Z) []]), 0)). intros x y. clear.
      transitivity ([x; y; p0; p1; p2; None; None]); [apply (Permutation_app_comm [None; None] [x; y; p0; p1; p2])|]. apply perm_skip.
      change ([y; p0; p1; p2; None; None]) with ([y; p0] ++ [p1; p2; None; None]). change ([p0; y; p1; p2; None; None]) with ([p0; y] ++ [p1; p2; None; None]). apply Permutation_app_tail. apply perm_swap.
  - intros _. discriminate.
  - exact R2.
  - intros ->. destruct p1 as [[b o]|]; [discriminate|destruct R1].
Qed.
Definition d_rest (a : d3h) : list (option ptr) := (mf_ptrs (d_list a) ++ [d_files a; d_buf_err a; d_root a; d_data a]) ++ [d_init a; d_init32 a].
Lemma d_ptrs_perm a : Permutation (d_ptrs a) (d_err a :: d_rest a).
Proof.
  unfold d_ptrs, d_rest. cbn [app]. apply Permutation_sym. etransitivity; [apply Permutation_middle|]. rewrite <- app_assoc. apply Permutation_refl.
Qed.
Lemma in_blocks_perm p q b : Permutation p q -> In b (ptr_blocks p) <-> In b (ptr_blocks q).
Proof. intros P. pose proof (blocks_perm _ _ P) as Q. split; intros I; (eapply Permutation_in; [|exact I]); [exact Q|apply Permutation_sym; exact Q]. Qed.
Lemma d_rest_set a e : d_rest (d3_set_err a e) = d_rest a.
Proof. reflexivity. Qed.
Lemma in_blocks_cons p l b : In b (ptr_blocks (p :: l)) <-> In b (ptr_blocks [p]) \/ In b (ptr_blocks l).
Proof. change (p :: l) with ([p] ++ l). rewrite ptr_blocks_app, in_app_iff. reflexivity. Qed.


(** The same pointers, in whatever order. *)
Definition somes (ps : list (option ptr)) : list ptr := flat_map (fun p => match p with Some x => [x] | None => [] end) ps.
Lemma somes_in x ps : In x (somes ps) <-> In (Some x) ps.
Proof. unfold somes. rewrite in_flat_map. split; [intros ([y|] & I & Q); [destruct Q as [-> |[]]; exact I|destruct Q]|intros I; exists (Some x); split; [exact I|left; reflexivity]]. Qed.
Lemma somes_app p q : somes (p ++ q) = somes p ++ somes q.
Proof. apply flat_map_app. Qed.
Lemma somes_blocks ps : ptr_blocks ps = map fst (somes ps).
Proof. induction ps as [|[[b o]|] ps IH]; [reflexivity| |exact IH]. cbn. f_equal. exact IH. Qed.
Definition ptr_dec : forall x y : ptr, {x = y} + {x <> y}.
Proof. decide equality; apply Nat.eq_dec. Defined.
Definition same (p q : list (option ptr)) : Prop := forall x, count_occ ptr_dec (somes p) x = count_occ ptr_dec (somes q) x.
Lemma same_perm p q : same p q -> Permutation (somes p) (somes q).
Proof. intros H. apply (Permutation_count_occ ptr_dec). exact H. Qed.
Lemma same_in p q x : same p q -> In (Some x) p -> In (Some x) q.
Proof. intros H I. apply somes_in. apply somes_in in I. eapply Permutation_in; [apply same_perm; exact H|exact I]. Qed.
Lemma same_sym p q : same p q -> same q p.
Proof. intros H x. symmetry. apply H. Qed.
Lemma same_blocks p q b : same p q -> In b (ptr_blocks p) <-> In b (ptr_blocks q).
Proof. intros H. rewrite !in_ptr_blocks. split; intros (o & I); exists o; (eapply same_in; [|exact I]); [exact H|apply same_sym; exact H]. Qed.
Lemma same_nodup p q : same p q -> NoDup (ptr_blocks p) -> NoDup (ptr_blocks q).
Proof. intros H. rewrite !somes_blocks. apply Permutation_NoDup. apply Permutation_map. apply same_perm. exact H. Qed.
Lemma good_same h p q : same p q -> good h p -> good h q.
Proof. intros H (D & K). split; [eapply same_nodup; eauto|]. intros b o I. apply (K b o). eapply same_in; [apply same_sym; exact H|exact I]. Qed.
Lemma grow_same h h' p q : same p q -> grow h h' p -> grow h h' q.
Proof.
  intros H [A B C D E F]. split; auto.
  - eapply same_nodup; eauto.
  - intros b o I. apply (D b o). eapply same_in; [apply same_sym; exact H|exact I].
  - intros b. rewrite <- E. symmetry. apply same_blocks. exact H.
Qed.
Lemma somes_cons x l : somes (x :: l) = somes [x] ++ somes l.
Proof. destruct x; reflexivity. Qed.
Ltac pcount := cbn [app]; repeat first [rewrite somes_app | rewrite count_occ_app
  | match goal with |- context [somes (?x :: ?l)] => lazymatch l with nil => fail | _ => rewrite (somes_cons x l) end end ];
  try change (somes [None]) with (@nil ptr); cbn [count_occ].
Ltac psame := intros ?; pcount; try lia.

(** Reading: the old message goes, coordinates may be kept, a new message may
    come. *)
Lemma keep_ok h p b h' q : keep h p b = (h', q) -> exists n, grow h h' n /\ same [q] (p :: n).
Proof.
  unfold keep. destruct p as [x|].
  - intros [= <- <-]. exists []. split; [apply grow_nil|intros y; reflexivity].
  - destruct b.
    + unfold h_malloc. intros [= <- <-]. exists [Some (length h, 0)]. split; [apply grow_one|intros y; reflexivity].
    + intros [= <- <-]. exists []. split; [apply grow_nil|intros y; reflexivity].
Qed.
Lemma d_ptrs_same a : same (d_ptrs a) (d_err a :: d_rest a).
Proof. unfold d_ptrs, d_rest. psame. Qed.
Lemma good_grow h h' p n : good h p -> grow h h' n -> good h' (p ++ n).
Proof.
  intros G W. apply good_join.
  - eapply good_frame; [exact G|]. intros b I. destruct (good_live _ _ _ G I) as (c & Q). rewrite Q. eapply grow_keep; eauto.
  - eapply grow_good; eauto.
  - intros b I J. destruct (good_live _ _ _ G I) as (c & Q). apply nth_lt in Q. apply (gr_all _ _ _ W) in J. lia.
Qed.
Lemma fail_with_ok h r h' e : fail_with h r = (h', e) -> grow h h' [e] /\ srep h' e r.
Proof.
  unfold fail_with. destruct (alloc_strings h [r]) as [h1 ps] eqn:E. destruct (grow_strings _ _ _ _ E) as (G & F). inversion F as [|p ? ps' ? R F']; subst. inversion F'; subst. intros [= <- <-]. auto.
Qed.
Lemma good_cons h p l : good h (p :: l) -> exists h1, h_free_opt h p = OK h1 /\ good h1 l /\ length h1 = length h /\
  (forall b, In b (ptr_blocks [p]) -> nth_error h1 b = Some None) /\ (forall b, ~ In b (ptr_blocks [p]) -> nth_error h1 b = nth_error h b).
Proof.
  intros G. change (p :: l) with ([p] ++ l) in G. destruct (good_app _ _ _ G) as (G1 & G2 & X). destruct (good_free _ _ G1) as (h1 & E & L & F & Fr). exists h1. cbn [h_free_all] in E.
  destruct (h_free_opt h p) as [h2| | ]; cbn [bind] in E; try discriminate. injection E as ->. split; [reflexivity|]. split; [|auto]. eapply good_frame; [exact G2|]. intros b I. apply Fr. intros J. exact (X b J I).
Qed.
Lemma call_plot_ok h a c c32 r : good h (d_ptrs a) -> d_ok a -> d_data a <> None ->
  exists h1 h' a' n, call_plot h a c c32 r = OK (h', a') /\ grow h1 h' n /\ length h1 = length h /\
  (forall b, In b (ptr_blocks [d_err a]) -> nth_error h1 b = Some None) /\ (forall b, ~ In b (ptr_blocks [d_err a]) -> nth_error h1 b = nth_error h b) /\
  good h1 (d_rest a) /\ same (d_ptrs a') (d_rest a ++ n) /\ d_ok a' /\ d_data a' <> None /\ srep h' (d_err a') r.
Proof.
  intros G K D. pose proof (good_same _ _ _ (d_ptrs_same a) G) as G1. destruct (good_cons _ _ _ G1) as (h1 & E & G2 & L & F & Fr). unfold call_plot. rewrite E. cbn [bind].
  destruct (d_data a) as [[bd od]|] eqn:Ed; [|congruence].
  assert (Id : In (Some (bd, od)) (d_rest a)) by (unfold d_rest; rewrite Ed; rewrite !in_app_iff; cbn; tauto).
  destruct (proj2 G2 _ _ Id) as (-> & cd & Qd). rewrite (read_live _ _ _ _ Qd). cbn [bind]. unfold d3_keep.
  destruct (keep h1 (d_init a) c) as [h2 p] eqn:E2. destruct (keep_ok _ _ _ _ _ E2) as (n2 & W2 & S2). destruct (keep h2 (d_init32 a) (c && c32)) as [h3 q] eqn:E3. destruct (keep_ok _ _ _ _ _ E3) as (n3 & W3 & S3).
  destruct (fail_with h3 r) as [h4 e] eqn:E4. destruct (fail_with_ok _ _ _ _ E4) as (W4 & R4). eexists h1, h4, _, (n2 ++ n3 ++ [e]). split; [reflexivity|].
  split; [apply (grow_app _ h2); [exact W2|apply (grow_app _ h3); assumption]|]. split; [exact L|]. split; [exact F|]. split; [exact Fr|]. split; [exact G2|].
  split; [|split; [exact K|split; [cbn; rewrite Ed; discriminate|exact R4]]].
  unfold d_ptrs, d_rest, d3_set_err. cbn [d_list d_files d_buf_err d_root d_data d_err d_init d_init32].
  intros x. specialize (S2 x). specialize (S3 x). revert S2 S3. rewrite (somes_cons _ n2), (somes_cons _ n3). pcount. lia.
Qed.

(** ** The binout handle *)
Fixpoint dent_ptrs (d : dent) : list (option ptr) :=
  match d with
  | DFile n => [n]
  | DFolder n arr ks => n :: match ks with [] => [] | _ => flat_map dent_ptrs ks ++ [arr] end
  end.
Fixpoint dent_ok (d : dent) : Prop :=
  match d with
  | DFile _ => True
  | DFolder _ arr ks => (ks <> [] -> arr <> None) /\ (fix go ks := match ks with [] => True | k :: t => dent_ok k /\ go t end) ks
  end.
Definition dents_ok (ks : list dent) : Prop := Forall dent_ok ks.
Lemma dent_ok_folder n arr ks : dent_ok (DFolder n arr ks) <-> (ks <> [] -> arr <> None) /\ dents_ok ks.
Proof.
  cbn [dent_ok]. apply and_iff_compat_l. unfold dents_ok. induction ks as [|k t IH]; [split; auto|]. split; [intros (A & B); constructor; [exact A|apply IH; exact B]|]. intros F. inversion F; subst. split; [assumption|apply IH; assumption].
Qed.
Lemma dent_induction (P : dent -> Prop) : (forall n, P (DFile n)) -> (forall n arr ks, Forall P ks -> P (DFolder n arr ks)) -> forall d, P d.
Proof.
  intros A B. fix IH 1. intros [n|n arr ks]; [apply A|]. apply B. revert ks. fix IHl 1. intros [|k t]; [constructor|]. constructor; [apply IH|apply IHl].
Qed.
Lemma tree_induction (P : tree -> Prop) : (forall n, P (TFile n)) -> (forall n ks, Forall P ks -> P (TFolder n ks)) -> forall d, P d.
Proof.
  intros A B. fix IH 1. intros [n|n ks]; [apply A|]. apply B. revert ks. fix IHl 1. intros [|k t]; [constructor|]. constructor; [apply IH|apply IHl].
Qed.
Lemma dent_free_folder h n arr ks : dent_free h (DFolder n arr ks) = do h <- h_free_opt h n; match ks with [] => OK h | _ => do h <- dents_free h arr ks; h_free_opt h arr end.
Proof.
  cbn [dent_free]. destruct (h_free_opt h n) as [h1| | ]; cbn [bind]; try reflexivity. destruct ks as [|k t]; [reflexivity|]. 
  assert (X : forall ks h, (fix go (h0 : heap) (ks0 : list dent) {struct ks0} : res heap := match ks0 with [] => OK h0 | k :: t => do _ <- str_read h0 arr; do h2 <- dent_free h0 k; go h2 t end) h ks = dents_free h arr ks).
  { clear. induction ks as [|k t IH]; intros h; [reflexivity|]. cbn [dents_free]. destruct (str_read h arr); cbn [bind]; try reflexivity. destruct (dent_free h k); cbn [bind]; auto. }
  cbn [dents_free]. destruct (str_read h1 arr); cbn [bind]; try reflexivity. destruct (dent_free h1 k); cbn [bind]; try reflexivity. rewrite X. reflexivity.
Qed.
Lemma dent_build_folder h n ks : dent_build h (TFolder n ks) =
  let '(h, p) := h_malloc h n in
  let '(h, q) := match ks with [] => (h, None) | _ => let '(h, q) := h_malloc h [] in (h, Some q) end in
  let '(h, es) := dents_build h ks in (h, DFolder (Some p) q es).
Proof.
  cbn [dent_build]. destruct (h_malloc h n) as [h1 p]. destruct (match ks with [] => (h1, None) | _ => let '(h, q) := h_malloc h1 [] in (h, Some q) end) as [h2 q].
  assert (X : forall ks h, (fix go (h0 : heap) (ks0 : list tree) {struct ks0} : heap * list dent := match ks0 with [] => (h0, []) | k :: t => let '(h1, e) := dent_build h0 k in let '(h2, es) := go h1 t in (h2, e :: es) end) h ks = dents_build h ks).
  { clear. induction ks as [|k t IH]; intros h; [reflexivity|]. cbn [dents_build]. destruct (dent_build h k). rewrite IH. reflexivity. }
  rewrite X. reflexivity.
Qed.

Definition frees_ok (d : dent) : Prop := forall h, dent_ok d -> good h (dent_ptrs d) -> dent_free h d = h_free_all h (dent_ptrs d).
Lemma dents_free_ok ks : Forall frees_ok ks -> forall h arr, dents_ok ks -> good h (flat_map dent_ptrs ks) ->
  (ks <> [] -> exists b o c, arr = Some (b, o) /\ nth_error h b = Some (Some c) /\ ~ In b (ptr_blocks (flat_map dent_ptrs ks))) ->
  dents_free h arr ks = h_free_all h (flat_map dent_ptrs ks).
Proof.
  induction 1 as [|k t K _ IH]; intros h arr O G A; [reflexivity|]. cbn [dents_free flat_map] in *. inversion O as [|? ? Ok Ot]; subst. destruct (A ltac:(discriminate)) as (b & o & c & -> & Q & NI).
  rewrite (read_live _ _ _ _ Q). cbn [bind]. destruct (good_app _ _ _ G) as (G1 & _ & _). rewrite (K h Ok G1). rewrite free_all_app. destruct (good_free_app _ _ _ G) as (h1 & E & G2 & _ & F). rewrite E. cbn [bind].
  apply IH; [exact Ot|exact G2|]. intros _. exists b, o, c. rewrite ptr_blocks_app, in_app_iff in NI. split; [reflexivity|]. split; [rewrite F by tauto; exact Q|tauto].
Qed.
Lemma dent_free_ok d : frees_ok d.
Proof.
  induction d as [n|n arr ks IH] using dent_induction; intros h O G.
  - cbn [dent_free dent_ptrs h_free_all]. destruct (h_free_opt h n); reflexivity.
  - rewrite dent_free_folder. apply dent_ok_folder in O. destruct O as (A & O). cbn [dent_ptrs] in *. cbn [h_free_all]. destruct (good_cons _ _ _ G) as (h1 & E & G1 & _). rewrite E. cbn [bind].
    destruct ks as [|k t]; [reflexivity|]. set (l := k :: t) in *. destruct (good_app _ _ _ G1) as (G2 & G3 & X). rewrite free_all_app. rewrite (dents_free_ok l IH h1 arr O G2).
    + destruct (h_free_all h1 (flat_map dent_ptrs l)) as [h2| | ]; cbn [bind]; try reflexivity. cbn [h_free_all]. destruct (h_free_opt h2 arr); reflexivity.
    + intros N. specialize (A N). destruct arr as [[b o]|]; [|congruence]. destruct (proj2 G3 b o (or_introl eq_refl)) as (-> & c & Q). exists b, 0, c. split; [reflexivity|]. split; [exact Q|]. intros I. apply (X b I). left. reflexivity.
Qed.

Definition builds_ok (t : tree) : Prop := forall h h' d, dent_build h t = (h', d) -> grow h h' (dent_ptrs d) /\ dent_ok d /\ Forall2 (srep h') (dent_names d) (map Some (tree_names t)).
Lemma dents_build_ok ks : Forall builds_ok ks -> forall h h' es, dents_build h ks = (h', es) ->
  grow h h' (flat_map dent_ptrs es) /\ dents_ok es /\ Forall2 (srep h') (flat_map dent_names es) (map Some (flat_map tree_names ks)) /\ length es = length ks.
Proof.
  induction 1 as [|k t K _ IH]; intros h h' es E; cbn [dents_build] in E.
  - injection E as <- <-. split; [apply grow_nil|]. split; [constructor|]. split; [constructor|reflexivity].
  - destruct (dent_build h k) as [h1 e] eqn:E1. destruct (dents_build h1 t) as [h2 es'] eqn:E2. injection E as <- <-. destruct (K _ _ _ E1) as (W1 & O1 & R1). destruct (IH _ _ _ E2) as (W2 & O2 & R2 & L).
    split; [cbn [flat_map]; eapply grow_app; eauto|]. split; [constructor; assumption|]. split; [|cbn; congruence]. cbn [flat_map]. rewrite map_app. apply Forall2_app; [|exact R2]. eapply grow_sreps; eauto.
Qed.
Lemma dent_build_ok t : builds_ok t.
Proof.
  induction t as [n|n ks IH] using tree_induction; intros h h' d E.
  - cbn [dent_build] in E. unfold h_malloc in E. injection E as <- <-. split; [apply grow_one|]. split; [exact Logic.I|]. cbn. constructor; [|constructor]. split; [reflexivity|]. rewrite nth_error_app2, Nat.sub_diag by lia. reflexivity.
  - rewrite dent_build_folder in E. destruct (h_malloc h n) as [h1 p] eqn:E1. destruct (grow_malloc _ _ _ _ E1) as (W1 & Q1). assert (P0 : snd p = 0) by (unfold h_malloc in E1; injection E1 as _ <-; reflexivity).
    destruct (match ks with [] => (h1, None) | _ => let '(h, q) := h_malloc h1 [] in (h, Some q) end) as [h2 q] eqn:E2.
    assert (W2 : grow h1 h2 [q]).
    { destruct ks; [injection E2 as <- <-; apply grow_none; apply grow_nil|]. unfold h_malloc in E2. injection E2 as <- <-. apply grow_one. }
    assert (Qn : ks <> [] -> q <> None).
    { destruct ks; [congruence|]. unfold h_malloc in E2. injection E2 as <- <-. discriminate. }
    assert (Qz : ks = [] -> q = None) by (intros ->; injection E2 as _ <-; reflexivity).
    destruct (dents_build h2 ks) as [h3 es] eqn:E3. injection E as <- <-. destruct (dents_build_ok ks IH _ _ _ E3) as (W3 & O3 & R3 & L3).
    pose proof (grow_app _ _ _ _ _ W1 (grow_app _ _ _ _ _ W2 W3)) as W. split; [|split].
    + revert W. apply grow_same. cbn [dent_ptrs]. destruct es as [|e es]; [|psame]. destruct ks; [|discriminate]. rewrite (Qz eq_refl). intros x. reflexivity.
    + apply dent_ok_folder. split; [|exact O3]. intros N. apply Qn. intros ->. destruct es; [congruence|discriminate].
    + cbn [dent_names tree_names map]. constructor; [|exact R3]. destruct p as [b o]. cbn [fst snd] in *. subst o. split; [reflexivity|]. eapply grow_keep; [exact W3|]. eapply grow_keep; [exact W2|]. exact Q1.
Qed.

Definition b_ptrs (a : binh) : list (option ptr) := mf_ptrs (b_list a) ++ flat_map dent_ptrs (b_dir a) ++ [b_arr a; b_err a].
Definition b_rest (a : binh) : list (option ptr) := mf_ptrs (b_list a) ++ flat_map dent_ptrs (b_dir a) ++ [b_arr a].
Lemma b_ptrs_same a : same (b_ptrs a) (b_err a :: b_rest a).
Proof. unfold b_ptrs, b_rest. psame. Qed.
Definition b_ok (a : binh) : Prop := dents_ok (b_dir a) /\ (b_dir a <> [] <-> b_arr a <> None) /\ (b_list a <> [] <-> b_files a <> None).
(** The array of files: it is not among the pointers that are freed. *)
Definition array_ok (h : heap) (a : binh) : Prop := forall b o, b_files a = Some (b, o) -> (exists c, nth_error h b = Some (Some c)) /\ ~ In b (ptr_blocks (b_ptrs a)).
Lemma bin_close_ok h a : good h (b_ptrs a) -> b_ok a -> array_ok h a ->
  exists h', bin_close h a = OK (h', bin_zero) /\ length h' = length h /\ (forall b, In b (ptr_blocks (b_ptrs a)) -> nth_error h' b = Some None) /\ (forall b, ~ In b (ptr_blocks (b_ptrs a)) -> nth_error h' b = nth_error h b).
Proof.
  intros G (O & Ar & Fs) K. destruct (good_free _ _ G) as (h' & E & L & F & Fr). exists h'. split; [|auto]. unfold bin_close. unfold b_ptrs in E, G. rewrite free_all_app in E.
  destruct (good_app _ _ _ G) as (G1 & G2 & X). destruct (good_free_app _ _ _ G) as (h1 & E1 & G3 & _ & F1).
  rewrite mfiles_close_ok; [|exact G1|].
  - rewrite E1 in E |- *. cbn [bind] in *. rewrite free_all_app in E. destruct (good_app _ _ _ G3) as (G4 & G5 & X'). rewrite dents_free_ok; [|apply Forall_forall; intros; apply dent_free_ok|exact O|exact G4|].
    + destruct (h_free_all h1 (flat_map dent_ptrs (b_dir a))) as [h2| | ]; cbn [bind] in *; try discriminate. cbn [h_free_all] in E. destruct (h_free_opt h2 (b_arr a)) as [h3| | ]; cbn [bind] in *; try discriminate.
      destruct (h_free_opt h3 (b_err a)) as [h4| | ]; cbn [bind] in *; try discriminate. injection E as ->. reflexivity.
    + intros N. apply Ar in N. destruct (b_arr a) as [[b o]|]; [|congruence]. destruct (proj2 G5 b o (or_introl eq_refl)) as (-> & c & Q). exists b, 0, c. split; [reflexivity|]. split; [exact Q|]. intros I. apply (X' b I). cbn. auto.
  - intros N. apply Fs in N. destruct (b_files a) as [[b o]|] eqn:Ef; [|congruence]. destruct (K b o Ef) as ((c & Q) & NI). exists b, o, c. split; [reflexivity|]. split; [exact Q|]. unfold b_ptrs in NI. rewrite ptr_blocks_app, in_app_iff in NI. tauto.
Qed.
Lemma bin_open_ok h ts n r h' a : bin_open h ts n r = (h', a) ->
  grow h h' (b_files a :: b_ptrs a) /\ b_ok a /\ length (b_list a) = n /\ srep h' (b_err a) r /\ Forall2 (srep h') (flat_map dent_names (b_dir a)) (map Some (flat_map tree_names ts)).
Proof.
  intros E. unfold bin_open in E. destruct (match n with 0 => (h, None) | _ => let '(h, p) := h_malloc h [] in (h, Some p) end) as [h1 files] eqn:E1.
  assert (W1 : grow h h1 [files] /\ (n <> 0 <-> files <> None)).
  { destruct n; [injection E1 as <- <-; split; [apply grow_none; apply grow_nil|tauto]|]. unfold h_malloc in E1. injection E1 as <- <-. split; [apply grow_one|split; discriminate]. }
  destruct W1 as (W1 & Fn). destruct (mfiles_open n h1) as [h2 fs] eqn:E2. destruct (mfiles_open_ok _ _ _ _ E2) as (W2 & L2).
  destruct (match ts with [] => (h2, None) | _ => let '(h, p) := h_malloc h2 [] in (h, Some p) end) as [h3 arr] eqn:E3.
  assert (W3 : grow h2 h3 [arr] /\ (ts <> [] <-> arr <> None)).
  { destruct ts; [injection E3 as <- <-; split; [apply grow_none; apply grow_nil|tauto]|]. unfold h_malloc in E3. injection E3 as <- <-. split; [apply grow_one|split; discriminate]. }
  destruct W3 as (W3 & An). destruct (dents_build h3 ts) as [h4 es] eqn:E4. destruct (dents_build_ok ts (proj2 (Forall_forall _ _) (fun t _ => dent_build_ok t)) _ _ _ E4) as (W4 & O4 & R4 & L4).
  destruct (alloc_strings h4 [r]) as [h5 ps] eqn:E5. destruct (grow_strings _ _ _ _ E5) as (W5 & F5). inversion F5 as [|p ? ps' ? R5 F6]; subst. inversion F6; subst. cbn [nth] in E. injection E as <- <-.
  split; [|split; [|split; [|split]]].
  - pose proof (grow_app _ _ _ _ _ W1 (grow_app _ _ _ _ _ W2 (grow_app _ _ _ _ _ W3 (grow_app _ _ _ _ _ W4 W5)))) as W. revert W. apply grow_same. unfold b_ptrs. cbn [b_files b_list b_dir b_arr b_err]. psame.
  - split; [exact O4|]. cbn [b_dir b_arr b_list b_files]. split.
    + rewrite <- An. destruct ts, es; try discriminate; split; congruence || discriminate.
    + rewrite <- Fn. destruct fs; cbn; split; congruence || discriminate.
  - reflexivity.
  - exact R5.
  - cbn [b_dir]. eapply grow_sreps; eauto.
Qed.
Lemma call_bin_ok h a r : good h (b_ptrs a) ->
  exists h1 h' e, call_bin h a r = OK (h', bin_set_err a e) /\ grow h1 h' [e] /\ length h1 = length h /\
  (forall b, In b (ptr_blocks [b_err a]) -> nth_error h1 b = Some None) /\ (forall b, ~ In b (ptr_blocks [b_err a]) -> nth_error h1 b = nth_error h b) /\
  good h1 (b_rest a) /\ srep h' e r.
Proof.
  intros G. destruct (good_cons _ _ _ (good_same _ _ _ (b_ptrs_same a) G)) as (h1 & E & G1 & L & F & Fr). unfold call_bin. rewrite E. cbn [bind].
  destruct (fail_with h1 r) as [h2 e] eqn:E2. destruct (fail_with_ok _ _ _ _ E2) as (W & R). exists h1, h2, e. split; [reflexivity|]. auto 10.
Qed.

(** ** Objects and values *)
Definition hblocks (o : obj) : list nat :=
  match o with
  | Plot a => ptr_blocks (d_ptrs a)
  | Bin a => ptr_blocks (b_ptrs a)
  | Str a => match s_data a with At p => if s_del a then ptr_blocks [p] else [] | Lit _ => [] end
  end.
Definition hrep (h : heap) (o : obj) (w : hval) : Prop :=
  match w with
  | VPlot e => exists a, o = Plot a /\ good h (d_ptrs a) /\ d_ok a /\ d_data a <> None /\ srep h (d_err a) e
  | VPlotEmpty => o = Plot d3_zero
  | VBin n ns e => exists a, o = Bin a /\ good h (b_ptrs a) /\ b_ok a /\ length (b_list a) = n /\ srep h (b_err a) e /\ Forall2 (srep h) (flat_map dent_names (b_dir a)) (map Some ns)
  | VText t => exists p, o = Str {| s_data := At p; s_del := true |} /\ srep h p (Some t)
  | VLit t => o = Str {| s_data := Lit t; s_del := false |}
  | VView _ _ _ => exists p, o = view p
  | VMoved => o = Str s_moved
  end.
Lemma names_in_ptrs d : forall p, In p (dent_names d) -> In p (dent_ptrs d).
Proof.
  induction d as [n|n arr ks IH] using dent_induction; intros p I; [exact I|]. cbn [dent_names dent_ptrs] in *. destruct I as [I|I]; [left; exact I|]. right. apply in_flat_map in I. destruct I as (k & Ik & I).
  rewrite Forall_forall in IH. destruct ks as [|k0 t]; [destruct Ik|]. apply in_app_iff. left. apply in_flat_map. exists k. split; [exact Ik|]. exact (IH k Ik p I).
Qed.
Lemma names_blocks a b : In b (ptr_blocks (flat_map dent_names (b_dir a))) -> In b (ptr_blocks (b_rest a)).
Proof.
  intros I. apply in_ptr_blocks in I. destruct I as (o & I). apply in_ptr_blocks. exists o. apply in_flat_map in I. destruct I as (d & Id & I). unfold b_rest. rewrite !in_app_iff. right. left. apply in_flat_map. exists d. split; [exact Id|apply names_in_ptrs; exact I].
Qed.
Lemma d_err_blocks a b : In b (ptr_blocks [d_err a]) -> In b (ptr_blocks (d_ptrs a)).
Proof. intros I. apply (same_blocks _ _ b (d_ptrs_same a)). apply in_blocks_cons. auto. Qed.
Lemma b_err_blocks a b : In b (ptr_blocks [b_err a]) -> In b (ptr_blocks (b_ptrs a)).
Proof. intros I. apply (same_blocks _ _ b (b_ptrs_same a)). apply in_blocks_cons. auto. Qed.
Lemma b_rest_blocks a b : In b (ptr_blocks (b_rest a)) -> In b (ptr_blocks (b_ptrs a)).
Proof. intros I. apply (same_blocks _ _ b (b_ptrs_same a)). apply in_blocks_cons. auto. Qed.
Lemma hrep_frame h h' o w : hrep h o w -> (forall b, In b (hblocks o) -> nth_error h' b = nth_error h b) -> hrep h' o w.
Proof.
  destruct w; cbn [hrep]; auto.
  - intros (a & -> & G & K & D & R) F. cbn [hblocks] in F. exists a. split; [reflexivity|]. split; [eapply good_frame; eauto|]. split; [exact K|]. split; [exact D|]. eapply srep_frame; [exact R|]. intros b I. apply F. apply d_err_blocks. exact I.
  - intros (a & -> & G & K & L & R & N) F. cbn [hblocks] in F. exists a. split; [reflexivity|]. split; [eapply good_frame; eauto|]. split; [exact K|]. split; [exact L|]. split.
    + eapply srep_frame; [exact R|]. intros b I. apply F. apply b_err_blocks. exact I.
    + eapply sreps_frame; [exact N|]. intros b I. apply F. apply b_rest_blocks. apply names_blocks. exact I.
  - intros (p & -> & R) F. cbn [hblocks s_data s_del] in F. exists p. split; [reflexivity|]. eapply srep_frame; eauto.
Qed.
Lemma hrep_live h o w b : hrep h o w -> In b (hblocks o) -> exists c, nth_error h b = Some (Some c).
Proof.
  destruct w; cbn [hrep].
  - intros (a & -> & G & _) I. eapply good_live; eauto.
  - intros -> [].
  - intros (a & -> & G & _) I. eapply good_live; eauto.
  - intros (p & -> & R) I. cbn [hblocks s_data s_del] in I. destruct p as [[b' o]|]; [|destruct I]. destruct I as [<-|[]]. destruct R as (_ & Q). eauto.
  - intros -> [].
  - intros (p & ->) [].
  - intros -> [].
Qed.
Notation hinv := (inv hblocks hrep).

(** What a view points to. *)
Definition obj_err (o : obj) : option ptr := match o with Plot a => d_err a | Bin a => b_err a | Str _ => None end.
Definition val_err (w : hval) : option (list Z) := match w with VPlot e => e | VBin _ _ e => e | _ => None end.
Definition obj_names (o : obj) : list (option ptr) := match o with Bin a => flat_map dent_names (b_dir a) | _ => [] end.
Definition val_names (w : hval) : list (list Z) := match w with VBin _ ns _ => ns | _ => [] end.
Definition src (K : lent) (o : obj) (w : hval) (p : option ptr) (t : list Z) : Prop :=
  match K with
  | OfError => obj_err o = p /\ val_err w = Some t
  | OfName => exists n, nth_error (obj_names o) n = Some p /\ nth_error (val_names w) n = Some t
  end.
Lemma nth_F2 {A B} (R : A -> B -> Prop) l m n a b : Forall2 R l m -> nth_error l n = Some a -> nth_error m n = Some b -> R a b.
Proof. intros F. revert n. induction F; intros [|n] Q1 Q2; try discriminate; cbn in *; [congruence|eauto]. Qed.
Lemma src_read K h o w p t : hrep h o w -> src K o w p t -> srep h p (Some t).
Proof.
  intros R Sr. destruct K.
  - destruct Sr as (<- & Ev). destruct w; cbn [val_err] in Ev; try discriminate; subst; cbn [hrep] in R.
    + destruct R as (a & -> & _ & _ & _ & R). exact R.
    + destruct R as (a & -> & _ & _ & _ & R & _). exact R.
  - destruct Sr as (n & Q1 & Q2). destruct w; cbn [val_names] in Q2; try (destruct n; discriminate). destruct R as (a & -> & _ & _ & _ & _ & F). cbn [obj_names] in Q1.
    eapply nth_F2; [exact F|exact Q1|]. rewrite nth_error_map, Q2. reflexivity.
Qed.
Lemma src_handle K o w p t : src K o w p t -> (forall K' k t', w <> VView K' k t') /\ w <> VMoved /\ (forall t', w <> VText t' /\ w <> VLit t') /\ w <> VPlotEmpty.
Proof. destruct K; [intros (_ & Q)|intros (n & _ & Q)]; destruct w; cbn in Q; try discriminate; try (destruct n; discriminate); repeat split; discriminate. Qed.

Definition views (s : store obj) (v : list (option hval)) : Prop :=
  forall i K k t, nth_error v i = Some (Some (VView K (Some k) t)) ->
  exists p o w, nth_error (st_objs s) i = Some (Some (view p)) /\ nth_error (st_objs s) k = Some (Some o) /\ nth_error v k = Some (Some w) /\ src K o w p t.
Definition arrays (s : store obj) (A : list nat) : Prop :=
  NoDup A /\ (forall b, In b A -> live s b /\ forall j o, nth_error (st_objs s) j = Some o -> ~ In b (oblocks hblocks o)) /\
  (forall j a b o, nth_error (st_objs s) j = Some (Some (Bin a)) -> b_files a = Some (b, o) -> In b A).
Definition acc (s : store obj) (A : list nat) : Prop :=
  forall b, live s b -> In b A \/ exists j o, nth_error (st_objs s) j = Some o /\ In b (oblocks hblocks o).
Definition H (s : store obj) (v : list (option hval)) (A : list nat) : Prop := hinv s v /\ views s v /\ arrays s A.

Lemma H0 : H store0 [] [].
Proof.
  split; [apply inv_store0|]. split; [intros i K k t Q; destruct i; discriminate|]. split; [constructor|]. split; [intros b []|]. intros j a b o Q. destruct j; discriminate.
Qed.
Lemma acc0 : acc store0 [].
Proof. intros b (c & Q). destruct b; discriminate. Qed.

Lemma every_nth g v i x : nth_error (everywhere g v) i = Some (Some x) <-> exists y, nth_error v i = Some (Some y) /\ g y = x.
Proof.
  unfold everywhere. rewrite nth_error_map. destruct (nth_error v i) as [[y|]|]; cbn; split; try discriminate.
  - intros [= <-]. eauto.
  - intros (z & [= ->] & <-). reflexivity.
  - intros (z & [=] & _).
  - intros (z & [=] & _).
Qed.
Lemma every_length g v : length (everywhere g v) = length v.
Proof. apply map_length. Qed.
Lemma every_inv g s v : (forall h o w, hrep h o w -> hrep h o (g w)) -> hinv s v -> hinv s (everywhere g v).
Proof.
  intros G (L & R & D). split; [rewrite every_length; exact L|]. split; [|exact D]. intros j o w Qo Qw. unfold everywhere in Qw. rewrite nth_error_map in Qw. destruct (nth_error v j) as [x|] eqn:E; [|discriminate]. injection Qw as <-.
  specialize (R j o x Qo E). destruct o, x; cbn in *; auto.
Qed.
Lemma rep_forget_err j h o w : hrep h o w -> hrep h o (forget_err j w).
Proof. destruct w; cbn; auto. destruct k; auto. destruct owner as [k|]; auto. destruct (k =? j); auto. Qed.
Lemma rep_forget j h o w : hrep h o w -> hrep h o (forget j w).
Proof. destruct w; cbn; auto. destruct owner as [k0|]; auto. destruct (k0 =? j); auto. Qed.
Lemma rep_pass j i h o w : hrep h o w -> hrep h o (pass j i w).
Proof. destruct w; cbn; auto. destruct owner as [k0|]; auto. Qed.
Lemma forget_err_view j w K k t : forget_err j w = VView K (Some k) t -> w = VView K (Some k) t /\ (K = OfError -> k <> j).
Proof.
  destruct w; cbn; try discriminate. destruct k0.
  - destruct owner as [k1|]; [|discriminate]. destruct (k1 =? j) eqn:E; [discriminate|]. intros [= <- <- <-]. apply Nat.eqb_neq in E. auto.
  - intros [= <- -> <-]. split; [reflexivity|discriminate].
Qed.
Lemma forget_view j w K k t : forget j w = VView K (Some k) t -> w = VView K (Some k) t /\ k <> j.
Proof. destruct w; cbn; try discriminate. destruct owner as [k1|]; [|discriminate]. destruct (k1 =? j) eqn:E; [discriminate|]. intros [= <- <- <-]. apply Nat.eqb_neq in E. auto. Qed.
Lemma pass_view j i w K k t : pass j i w = VView K (Some k) t -> exists k0, w = VView K (Some k0) t /\ k = if k0 =? j then i else k0.
Proof. destruct w; cbn; try discriminate. destruct owner as [k1|]; [|discriminate]. intros [= <- <- <-]. eauto. Qed.
Lemma forget_err_handle j w : (forall K k t, w <> VView K k t) -> forget_err j w = w.
Proof. destruct w; intros N; try reflexivity. exfalso. eapply N. reflexivity. Qed.
Lemma forget_handle j w : (forall K k t, w <> VView K k t) -> forget j w = w.
Proof. destruct w; intros N; try reflexivity. exfalso. eapply N. reflexivity. Qed.
Lemma pass_handle i j w : (forall K k t, w <> VView K k t) -> pass j i w = w.
Proof. destruct w; intros N; try reflexivity. exfalso. eapply N. reflexivity. Qed.

(** Values that are forgotten. *)
Lemma H_forget_err s v A j : H s v A -> H s (everywhere (forget_err j) v) A.
Proof.
  intros (I & V & Ar). split; [apply every_inv; [intros h o w; apply rep_forget_err|exact I]|]. split; [|exact Ar]. intros i K k t Q. apply every_nth in Q. destruct Q as (y & Q & Ey). apply forget_err_view in Ey. destruct Ey as (-> & _).
  destruct (V i K k t Q) as (p & o & w & Q1 & Q2 & Q3 & Sr). exists p, o, w. split; [exact Q1|]. split; [exact Q2|]. split; [|exact Sr]. apply every_nth. exists w. split; [exact Q3|]. apply forget_err_handle. apply (src_handle _ _ _ _ _ Sr).
Qed.
Lemma H_forget s v A j : H s v A -> H s (everywhere (forget j) v) A.
Proof.
  intros (I & V & Ar). split; [apply every_inv; [intros h o w; apply rep_forget|exact I]|]. split; [|exact Ar]. intros i K k t Q. apply every_nth in Q. destruct Q as (y & Q & Ey). apply forget_view in Ey. destruct Ey as (-> & _).
  destruct (V i K k t Q) as (p & o & w & Q1 & Q2 & Q3 & Sr). exists p, o, w. split; [exact Q1|]. split; [exact Q2|]. split; [|exact Sr]. apply every_nth. exists w. split; [exact Q3|]. apply forget_handle. apply (src_handle _ _ _ _ _ Sr).
Qed.

(** A new object. *)
Lemma H_new s v A h o w X : H s v A -> length (st_heap s) <= length h -> (forall b, b < length (st_heap s) -> nth_error h b = nth_error (st_heap s) b) ->
  hrep h o w -> (forall b, In b (hblocks o) -> length (st_heap s) <= b) ->
  NoDup X -> (forall b, In b X -> length (st_heap s) <= b /\ (exists c, nth_error h b = Some (Some c)) /\ ~ In b (hblocks o)) ->
  (forall a b q, o = Bin a -> b_files a = Some (b, q) -> In b X) ->
  (forall K k t, w = VView K (Some k) t -> exists p o' w', o = view p /\ nth_error (st_objs s) k = Some (Some o') /\ nth_error v k = Some (Some w') /\ src K o' w' p t) ->
  H (new_obj s h o) (v ++ [Some w]) (A ++ X) /\
  ((forall b c, length (st_heap s) <= b -> nth_error h b = Some (Some c) -> In b (hblocks o) \/ In b X) -> acc s A -> acc (new_obj s h o) (A ++ X)).
Proof.
  intros (I & V & (An & Al & Ab)) L F R Fr Xn Xl Xb Vw.
  assert (Lo : forall j p b, nth_error (st_objs s) j = Some p -> In b (oblocks hblocks p) -> b < length (st_heap s)) by (intros j p b Qp Ip; exact (inv_block_lt hblocks hrep hrep_frame hrep_live s v j p b I Qp Ip)).
  assert (Al' : forall b, In b A -> b < length (st_heap s)) by (intros b Ib; destruct (Al b Ib) as ((c & Q) & _); eapply nth_lt; eauto).
  split; [split; [|split]|].
  - apply (inv_new hblocks hrep hrep_frame hrep_live); auto.
    + intros j p b Q Ip. apply F. eapply Lo; eauto.
    + intros b j p Ib Q Ip. specialize (Fr b Ib). pose proof (Lo j p b Q Ip). lia.
  - intros i K k t Q. unfold new_obj. cbn [st_objs]. pose proof I as (Ln & _ & _). destruct (nth_snoc _ _ _ _ Q) as [[Li Q']|[-> [= <-]]].
    + destruct (V i K k t Q') as (p & o' & w' & Q1 & Q2 & Q3 & Sr). exists p, o', w'. rewrite !nth_error_app1 by (eapply nth_lt; eauto). auto.
    + destruct (Vw K k t eq_refl) as (p & o' & w' & -> & Q2 & Q3 & Sr). exists p, o', w'. rewrite <- Ln at 1. rewrite nth_error_app2, Nat.sub_diag by lia. rewrite !nth_error_app1 by (eapply nth_lt; eauto). auto.
  - split; [|split].
    + apply nodup_join; auto. intros b I1 I2. apply Al' in I1. destruct (Xl b I2) as (X1 & _). lia.
    + intros b Ib. apply in_app_iff in Ib. cbn [new_obj st_objs]. destruct Ib as [Ib|Ib].
      * destruct (Al b Ib) as ((c & Q) & No). split; [exists c; cbn [new_obj st_heap]; rewrite F by (apply Al'; exact Ib); exact Q|]. intros j p Qp Ip. destruct (nth_snoc _ _ _ _ Qp) as [[Lj Qp']|[-> ->]]; [exact (No j p Qp' Ip)|]. cbn [oblocks] in Ip. apply Fr in Ip. apply Al' in Ib. lia.
      * destruct (Xl b Ib) as (Lb & (c & Q) & No). split; [exists c; exact Q|]. intros j p Qp Ip. destruct (nth_snoc _ _ _ _ Qp) as [[Lj Qp']|[-> ->]]; [pose proof (Lo j p b Qp' Ip); lia|exact (No Ip)].
    + intros j a b q Qj Qf. apply in_app_iff. cbn [new_obj st_objs] in Qj. destruct (nth_snoc _ _ _ _ Qj) as [[Lj Qj']|[-> [= <-]]]; [left; eapply Ab; eauto|right; eapply Xb; eauto].
  - intros C Ac b (c & Q). cbn [new_obj st_heap st_objs] in *. destruct (Nat.lt_ge_cases b (length (st_heap s))) as [Lb|Lb].
    + rewrite F in Q by exact Lb. destruct (Ac b (ex_intro _ c Q)) as [Ib|(j & p & Qp & Ip)]; [left; apply in_app_iff; auto|]. right. exists j, p. split; [|exact Ip]. rewrite nth_error_app1 by (eapply nth_lt; eauto). exact Qp.
    + destruct (C b c Lb Q) as [Ib|Ib]; [|left; apply in_app_iff; auto]. right. exists (length (st_objs s)), (Some o). split; [|exact Ib]. rewrite nth_error_app2, Nat.sub_diag by lia. reflexivity.
Qed.

(** A handle changes. *)
Lemma H_put s v A h j o w o' w' : H s v A -> nth_error (st_objs s) j = Some (Some o) -> nth_error v j = Some (Some w) ->
  length (st_heap s) <= length h -> (forall b, b < length (st_heap s) -> ~ In b (hblocks o) -> nth_error h b = nth_error (st_heap s) b) ->
  hrep h o' w' -> (forall b, In b (hblocks o') -> In b (hblocks o) \/ length (st_heap s) <= b) ->
  (forall a b q, o' = Bin a -> b_files a = Some (b, q) -> exists a', o = Bin a' /\ b_files a' = Some (b, q)) ->
  (forall i K p t, nth_error v i = Some (Some (VView K (Some j) t)) -> src K o w p t -> src K o' w' p t) -> (forall K k t, w' <> VView K k t) ->
  H {| st_heap := h; st_objs := replace (st_objs s) j (Some o') |} (replace v j (Some w')) A /\
  ((forall b c, nth_error h b = Some (Some c) -> length (st_heap s) <= b \/ In b (hblocks o) -> In b (hblocks o')) -> acc s A -> acc {| st_heap := h; st_objs := replace (st_objs s) j (Some o') |} A).
Proof.
  intros (I & V & (An & Al & Ab)) Qo Qw L F R Fr Bf Vs Nv. pose proof (nth_lt _ _ _ Qo) as Lo. pose proof (nth_lt _ _ _ Qw) as Lw. pose proof I as (_ & _ & D).
  assert (Lb : forall i p b, nth_error (st_objs s) i = Some p -> In b (oblocks hblocks p) -> b < length (st_heap s)) by (intros i p b Qp Ip; exact (inv_block_lt hblocks hrep hrep_frame hrep_live s v i p b I Qp Ip)).
  assert (Al' : forall b, In b A -> b < length (st_heap s)) by (intros b Ib; destruct (Al b Ib) as ((c & Q) & _); eapply nth_lt; eauto).
  split; [split; [|split]|].
  - apply (inv_put hblocks hrep hrep_frame hrep_live); auto.
    + intros i p b Ni Q Ip. apply F; [eapply Lb; eauto|]. intros Io. exact (D i j p (Some o) b Ni Q Qo Ip Io).
    + intros b i p Ni Ib Q Ip. destruct (Fr b Ib) as [Io|Lb']; [exact (D i j p (Some o) b Ni Q Qo Ip Io)|]. pose proof (Lb i p b Q Ip). lia.
  - intros i K k t Q. cbn [st_objs]. destruct (Nat.eq_dec i j) as [->|Ni]; [rewrite nth_replace_eq in Q by exact Lw; injection Q as Q; exfalso; exact (Nv _ _ _ Q)|].
    rewrite nth_replace_neq in Q by auto. destruct (V i K k t Q) as (p & o1 & w1 & Q1 & Q2 & Q3 & Sr). destruct (Nat.eq_dec k j) as [->|Nk].
    + rewrite Q2 in Qo. injection Qo as ->. rewrite Q3 in Qw. injection Qw as ->. exists p, o', w'. rewrite nth_replace_neq by auto. rewrite !nth_replace_eq by assumption. split; [exact Q1|]. split; [reflexivity|]. split; [reflexivity|]. eapply Vs; eauto.
    + exists p, o1, w1. rewrite !nth_replace_neq by auto. auto.
  - split; [exact An|]. split.
    + intros b Ib. destruct (Al b Ib) as ((c & Q) & No). cbn [st_objs]. split.
      * exists c. cbn [st_heap]. rewrite F; [exact Q|apply Al'; exact Ib|]. exact (No j (Some o) Qo).
      * intros i p Qp Ip. destruct (Nat.eq_dec i j) as [->|Ni]; [|rewrite nth_replace_neq in Qp by auto; exact (No i p Qp Ip)]. rewrite nth_replace_eq in Qp by exact Lo. injection Qp as <-. cbn [oblocks] in Ip. destruct (Fr b Ip) as [Io|Lb']; [exact (No j (Some o) Qo Io)|]. apply Al' in Ib. lia.
    + intros i a b q Qi Qf. cbn [st_objs] in Qi. destruct (Nat.eq_dec i j) as [->|Ni]; [|rewrite nth_replace_neq in Qi by auto; eapply Ab; eauto]. rewrite nth_replace_eq in Qi by exact Lo. injection Qi as ->. destruct (Bf a b q eq_refl Qf) as (a' & -> & Qf'). eapply Ab; eauto.
  - intros C Ac b (c & Q). cbn [st_heap st_objs] in *. assert (X : In b (hblocks o') -> In b A \/ (exists j0 o0, nth_error (replace (st_objs s) j (Some o')) j0 = Some o0 /\ In b (oblocks hblocks o0))).
    { intros Ib. right. exists j, (Some o'). split; [apply nth_replace_eq; exact Lo|exact Ib]. }
    destruct (Nat.lt_ge_cases b (length (st_heap s))) as [Lb'|Lb']; [|apply X; eapply C; eauto]. destruct (in_dec Nat.eq_dec b (hblocks o)) as [Io|Io]; [apply X; eapply C; eauto|].
    rewrite F in Q by assumption. destruct (Ac b (ex_intro _ c Q)) as [Ib|(i & p & Qp & Ip)]; [auto|]. right. exists i, p. split; [|exact Ip]. rewrite nth_replace_neq; [exact Qp|]. intros ->. rewrite Qo in Qp. injection Qp as <-. exact (Io Ip).
Qed.

(** An object goes. *)
Lemma destroy_H s v A h j o : H s v A -> nth_error (st_objs s) j = Some (Some o) ->
  (forall b, ~ In b (hblocks o) -> nth_error h b = nth_error (st_heap s) b) ->
  H {| st_heap := h; st_objs := replace (st_objs s) j None |} (replace (everywhere (forget j) v) j None) A /\
  ((forall b, In b (hblocks o) -> nth_error h b = Some None) -> acc s A -> acc {| st_heap := h; st_objs := replace (st_objs s) j None |} A).
Proof.
  intros Hs Qo F. pose proof (H_forget _ _ _ j Hs) as (I & V & (An & Al & Ab)). pose proof (nth_lt _ _ _ Qo) as Lo. pose proof I as (Ln & _ & _). assert (Lw : j < length (everywhere (forget j) v)) by lia.
  split; [split; [|split]|].
  - eapply (inv_destroy hblocks hrep hrep_frame hrep_live); eauto.
  - intros i K k t Q. cbn [st_objs]. destruct (Nat.eq_dec i j) as [->|Ni]; [rewrite nth_replace_eq in Q by exact Lw; discriminate|]. rewrite nth_replace_neq in Q by auto.
    destruct (V i K k t Q) as (p & o1 & w1 & Q1 & Q2 & Q3 & Sr). apply every_nth in Q. destruct Q as (y & Q & Ey). apply forget_view in Ey. destruct Ey as (_ & Nk). exists p, o1, w1. rewrite !nth_replace_neq by auto. auto.
  - split; [exact An|]. split.
    + intros b Ib. destruct (Al b Ib) as ((c & Q) & No). cbn [st_objs]. split.
      * exists c. cbn [st_heap]. rewrite F; [exact Q|]. exact (No j (Some o) Qo).
      * intros i p Qp Ip. destruct (Nat.eq_dec i j) as [->|Ni]; [rewrite nth_replace_eq in Qp by exact Lo; injection Qp as <-; destruct Ip|rewrite nth_replace_neq in Qp by auto; exact (No i p Qp Ip)].
    + intros i a b q Qi Qf. cbn [st_objs] in Qi. destruct (Nat.eq_dec i j) as [->|Ni]; [rewrite nth_replace_eq in Qi by exact Lo; discriminate|rewrite nth_replace_neq in Qi by auto; eapply Ab; eauto].
  - intros C Ac b (c & Q). cbn [st_heap st_objs] in *. destruct (in_dec Nat.eq_dec b (hblocks o)) as [Io|Io]; [rewrite (C b Io) in Q; discriminate|].
    rewrite F in Q by assumption. destruct (Ac b (ex_intro _ c Q)) as [Ib|(i & p & Qp & Ip)]; [auto|]. right. exists i, p. split; [|exact Ip]. rewrite nth_replace_neq; [exact Qp|]. intros ->. rewrite Qo in Qp. injection Qp as <-. exact (Io Ip).
Qed.

(** Moves. *)
Lemma moved_blocks o : hblocks (obj_moved o) = [].
Proof. destruct o; reflexivity. Qed.
Lemma moved_rep h h' o w : hrep h o w -> hrep h' (obj_moved o) (moved w).
Proof.
  destruct w; cbn [hrep moved].
  - intros (a & -> & _). reflexivity.
  - intros ->. reflexivity.
  - intros (a & -> & _). cbn [obj_moved]. exists bin_zero. split; [reflexivity|]. split; [split; [constructor|intros b o [Q|[Q|[]]]; discriminate]|]. split; [split; [constructor|]; split; [cbn; split; congruence|cbn; split; congruence]|]. split; [reflexivity|]. split; [exact Logic.I|constructor].
  - intros (p & -> & _). reflexivity.
  - intros ->. reflexivity.
  - intros (p & ->). reflexivity.
  - intros ->. reflexivity.
Qed.
Lemma moved_no_view w K k t : moved w <> VView K k t.
Proof. destruct w; discriminate. Qed.
Lemma moved_files o a b q : obj_moved o = Bin a -> b_files a = Some (b, q) -> False.
Proof. destruct o; cbn; try discriminate. intros [= <-]. discriminate. Qed.
Lemma rep_class h h' o p w x : hrep h o w -> hrep h' p x -> same_kind w x -> same_class o p = true.
Proof.
  destruct w, x; cbn [hrep same_kind]; try tauto; intros R Q _;
    repeat match goal with H : exists _, _ |- _ => destruct H end; repeat match goal with H : _ /\ _ |- _ => destruct H end; subst; reflexivity.
Qed.

Lemma move_new_H s v A j o w : H s v A -> nth_error (st_objs s) j = Some (Some o) -> nth_error v j = Some (Some w) ->
  H {| st_heap := st_heap s; st_objs := replace (st_objs s) j (Some (obj_moved o)) ++ [Some o] |} (everywhere (pass j (length v)) (replace v j (Some (moved w)) ++ [Some w])) A /\
  (acc s A -> acc {| st_heap := st_heap s; st_objs := replace (st_objs s) j (Some (obj_moved o)) ++ [Some o] |} A).
Proof.
  intros (I & V & (An & Al & Ab)) Qo Qw. pose proof (nth_lt _ _ _ Qo) as Lo. pose proof (nth_lt _ _ _ Qw) as Lw. pose proof I as (Ln & Rp & _).
  assert (Ro : hrep (st_heap s) o w) by (apply (Rp j (Some o) (Some w)); assumption).
  split; [split; [|split]|].
  - apply every_inv; [intros h' o' w'; apply rep_pass|]. apply (inv_move_new hblocks hrep hrep_frame hrep_live); auto; [apply moved_blocks|]. eapply moved_rep; eauto.
  - intros i K k t Q. cbn [st_objs]. apply every_nth in Q. destruct Q as (y & Q & Ey). apply pass_view in Ey. destruct Ey as (k0 & -> & ->).
    assert (Old : forall k1 o1 w1, k1 <> j -> nth_error (st_objs s) k1 = Some (Some o1) -> nth_error v k1 = Some (Some w1) ->
      nth_error (replace (st_objs s) j (Some (obj_moved o)) ++ [Some o]) k1 = Some (Some o1) /\ nth_error (replace v j (Some (moved w)) ++ [Some w]) k1 = Some (Some w1)).
    { intros k1 o1 w1 N1 Q1 Q2. rewrite !nth_error_app1 by (rewrite replace_length; eapply nth_lt; eauto). rewrite !nth_replace_neq by auto. auto. }
    assert (New : nth_error (replace (st_objs s) j (Some (obj_moved o)) ++ [Some o]) (length v) = Some (Some o) /\ nth_error (replace v j (Some (moved w)) ++ [Some w]) (length v) = Some (Some w)).
    { split; rewrite nth_error_app2 by (rewrite replace_length; lia); rewrite replace_length, ?Ln, Nat.sub_diag; reflexivity. }
    destruct (nth_snoc _ _ _ _ Q) as [[Li Qi]|[-> [= <-]]].
    + rewrite replace_length in Li. destruct (Nat.eq_dec i j) as [->|Ni]; [rewrite nth_replace_eq in Qi by exact Lw; injection Qi as Qi; exfalso; exact (moved_no_view _ _ _ _ Qi)|].
      rewrite nth_replace_neq in Qi by auto. destruct (V i K k0 t Qi) as (p & o1 & w1 & Q1 & Q2 & Q3 & Sr). destruct (Old i (view p) _ Ni Q1 Qi) as (Q1' & _). pose proof (src_handle _ _ _ _ _ Sr) as (Nv & _).
      destruct (Nat.eq_dec k0 j) as [->|Nk].
      * rewrite Nat.eqb_refl. rewrite Q2 in Qo. injection Qo as ->. rewrite Q3 in Qw. injection Qw as ->. exists p, o, w. split; [exact Q1'|]. split; [apply New|]. split; [|exact Sr]. apply every_nth. exists w. split; [apply New|]. apply pass_handle. exact Nv.
      * apply Nat.eqb_neq in Nk. rewrite Nk. apply Nat.eqb_neq in Nk. destruct (Old k0 o1 w1 Nk Q2 Q3) as (Q2' & Q3'). exists p, o1, w1. split; [exact Q1'|]. split; [exact Q2'|]. split; [|exact Sr]. apply every_nth. exists w1. split; [exact Q3'|]. apply pass_handle. exact Nv.
    + rewrite replace_length in *. destruct (V j K k0 t Qw) as (p & o1 & w1 & Q1 & Q2 & Q3 & Sr). pose proof (src_handle _ _ _ _ _ Sr) as (Nv & _).
      assert (Nk : k0 <> j) by (intros ->; rewrite Qw in Q3; injection Q3 as <-; eapply Nv; reflexivity). destruct (Old k0 o1 w1 Nk Q2 Q3) as (Q2' & Q3'). apply Nat.eqb_neq in Nk. rewrite Nk.
      exists p, o1, w1. rewrite Q1 in Qo. injection Qo as <-. split; [exact (proj1 New)|]. split; [exact Q2'|]. split; [|exact Sr]. apply every_nth. exists w1. split; [exact Q3'|]. apply pass_handle. exact Nv.
  - split; [exact An|]. split.
    + intros b Ib. destruct (Al b Ib) as (Lv & No). split; [exact Lv|]. cbn [st_objs]. intros i p Qp Ip. destruct (nth_snoc _ _ _ _ Qp) as [[Li Qi]|[-> ->]]; [|exact (No j (Some o) Qo Ip)].
      destruct (Nat.eq_dec i j) as [->|Ni]; [rewrite nth_replace_eq in Qi by exact Lo; injection Qi as <-; cbn [oblocks] in Ip; rewrite moved_blocks in Ip; destruct Ip|rewrite nth_replace_neq in Qi by auto; exact (No i p Qi Ip)].
    + cbn [st_objs]. intros i a b q Qi Qf. destruct (nth_snoc _ _ _ _ Qi) as [[Li Qi']|[-> [= <-]]]; [|eapply Ab; eauto].
      destruct (Nat.eq_dec i j) as [->|Ni]; [rewrite nth_replace_eq in Qi' by exact Lo; injection Qi' as Qi'; exfalso; eapply moved_files; eauto|rewrite nth_replace_neq in Qi' by auto; eapply Ab; eauto].
  - intros Ac b Lv. destruct (Ac b Lv) as [Ib|(i & p & Qp & Ip)]; [auto|]. right. cbn [st_objs]. destruct (Nat.eq_dec i j) as [->|Ni].
    + rewrite Qo in Qp. injection Qp as <-. exists (length (replace (st_objs s) j (Some (obj_moved o)))), (Some o). split; [|exact Ip]. rewrite nth_error_app2, Nat.sub_diag by lia. reflexivity.
    + exists i, p. split; [|exact Ip]. rewrite nth_error_app1 by (rewrite replace_length; eapply nth_lt; eauto). rewrite nth_replace_neq by auto. exact Qp.
Qed.

Lemma move_to_H s v A i j o w p0 x : H s v A -> i <> j -> nth_error (st_objs s) j = Some (Some o) -> nth_error v j = Some (Some w) -> nth_error (st_objs s) i = Some (Some p0) -> nth_error v i = Some (Some x) -> same_kind w x ->
  H {| st_heap := st_heap s; st_objs := replace (replace (st_objs s) i (Some o)) j (Some (obj_moved o)) |} (everywhere (pass j i) (replace (replace (everywhere (forget i) v) i (Some w)) j (Some (moved w)))) A /\
  (hblocks p0 = [] -> acc s A -> acc {| st_heap := st_heap s; st_objs := replace (replace (st_objs s) i (Some o)) j (Some (obj_moved o)) |} A).
Proof.
  intros Hs N Qo Qw Qp Qx Sk. pose proof Hs as (I0 & V0 & (An & Al & Ab)). pose proof (H_forget _ _ _ i Hs) as (I & V & _).
  pose proof (nth_lt _ _ _ Qo) as Lo. pose proof (nth_lt _ _ _ Qw) as Lw. pose proof (nth_lt _ _ _ Qp) as Lp. pose proof (nth_lt _ _ _ Qx) as Lx. pose proof I0 as (Ln & Rp & _).
  assert (Ro : hrep (st_heap s) o w) by (apply (Rp j (Some o) (Some w)); assumption).
  (* what is moved is not lent by the target *)
  assert (Fw : nth_error (everywhere (forget i) v) j = Some (Some w)).
  { apply every_nth. exists w. split; [exact Qw|]. destruct w as [e| |n ns e|t|t|K [k|] t| ]; try reflexivity. destruct (V0 j K k t Qw) as (p & o1 & w1 & Q1 & Q2 & Q3 & Sr). cbn [forget]. destruct (Nat.eqb_spec k i) as [->|]; [|reflexivity]. rewrite Qx in Q3. injection Q3 as <-.
    pose proof (src_handle _ _ _ _ _ Sr) as (Nv & Nm & Nt & Ne). exfalso. destruct x; cbn in Sk; try contradiction; try (eapply Nv; reflexivity); try (apply Nm; reflexivity); destruct (Nt t0) as (? & ?); congruence. }
  split; [split; [|split]|].
  - apply every_inv; [intros h' o' w'; apply rep_pass|]. apply (inv_move_to hblocks hrep hrep_frame hrep_live); auto; [rewrite every_length; exact Lx|apply moved_blocks|]. eapply moved_rep; eauto.
  - intros m K k t Q. cbn [st_objs]. apply every_nth in Q. destruct Q as (y & Q & Ey). apply pass_view in Ey. destruct Ey as (k0 & -> & ->).
    assert (Old : forall k1 o1 w1, k1 <> j -> k1 <> i -> nth_error (st_objs s) k1 = Some (Some o1) -> nth_error (everywhere (forget i) v) k1 = Some (Some w1) ->
      nth_error (replace (replace (st_objs s) i (Some o)) j (Some (obj_moved o))) k1 = Some (Some o1) /\ nth_error (replace (replace (everywhere (forget i) v) i (Some w)) j (Some (moved w))) k1 = Some (Some w1)).
    { intros k1 o1 w1 N1 N2 Q1 Q2. rewrite !nth_replace_neq by auto. auto. }
    assert (New : nth_error (replace (replace (st_objs s) i (Some o)) j (Some (obj_moved o))) i = Some (Some o) /\ nth_error (replace (replace (everywhere (forget i) v) i (Some w)) j (Some (moved w))) i = Some (Some w)).
    { rewrite !(nth_replace_neq _ j i) by auto. rewrite !nth_replace_eq by (rewrite ?every_length; assumption). auto. }
    destruct (Nat.eq_dec m j) as [->|Nj]; [rewrite nth_replace_eq in Q by (rewrite replace_length, every_length; exact Lw); injection Q as Q; exfalso; exact (moved_no_view _ _ _ _ Q)|].
    rewrite nth_replace_neq in Q by auto. destruct (Nat.eq_dec m i) as [->|Ni].
    + rewrite nth_replace_eq in Q by (rewrite every_length; exact Lx). injection Q as ->. destruct (V j K k0 t Fw) as (p & o1 & w1 & Q1 & Q2 & Q3 & Sr). pose proof (src_handle _ _ _ _ _ Sr) as (Nv & _).
      assert (Nk : k0 <> j) by (intros ->; rewrite Fw in Q3; injection Q3 as <-; eapply Nv; reflexivity).
      assert (Nk' : k0 <> i) by (apply every_nth in Fw; destruct Fw as (y & _ & Ey); apply forget_view in Ey; tauto).
      destruct (Old k0 o1 w1 Nk Nk' Q2 Q3) as (Q2' & Q3'). apply Nat.eqb_neq in Nk. rewrite Nk.
      exists p, o1, w1. rewrite Q1 in Qo. injection Qo as <-. split; [exact (proj1 New)|]. split; [exact Q2'|]. split; [|exact Sr]. apply every_nth. exists w1. split; [exact Q3'|]. apply pass_handle. exact Nv.
    + rewrite nth_replace_neq in Q by auto. destruct (V m K k0 t Q) as (p & o1 & w1 & Q1 & Q2 & Q3 & Sr). destruct (Old m (view p) _ Nj Ni Q1 Q) as (Q1' & _). pose proof (src_handle _ _ _ _ _ Sr) as (Nv & _).
      destruct (Nat.eq_dec k0 j) as [->|Nk].
      * rewrite Nat.eqb_refl. rewrite Q2 in Qo. injection Qo as ->. rewrite Q3 in Fw. injection Fw as ->. exists p, o, w. split; [exact Q1'|]. split; [apply New|]. split; [|exact Sr]. apply every_nth. exists w. split; [apply New|]. apply pass_handle. exact Nv.
      * assert (Nk' : k0 <> i) by (apply every_nth in Q; destruct Q as (y & _ & Ey); apply forget_view in Ey; tauto). destruct (Old k0 o1 w1 Nk Nk' Q2 Q3) as (Q2' & Q3'). apply Nat.eqb_neq in Nk. rewrite Nk.
        exists p, o1, w1. split; [exact Q1'|]. split; [exact Q2'|]. split; [|exact Sr]. apply every_nth. exists w1. split; [exact Q3'|]. apply pass_handle. exact Nv.
  - split; [exact An|]. cbn [st_objs]. assert (Cs : forall m p, nth_error (replace (replace (st_objs s) i (Some o)) j (Some (obj_moved o))) m = Some p -> p = Some (obj_moved o) \/ exists m', nth_error (st_objs s) m' = Some p).
    { intros m p Q. destruct (Nat.eq_dec m j) as [->|Nj]; [rewrite nth_replace_eq in Q by (rewrite replace_length; exact Lo); injection Q as <-; auto|]. rewrite nth_replace_neq in Q by auto. right.
      destruct (Nat.eq_dec m i) as [->|Ni]; [rewrite nth_replace_eq in Q by exact Lp; injection Q as <-; eauto|]. rewrite nth_replace_neq in Q by auto. eauto. }
    split.
    + intros b Ib. destruct (Al b Ib) as (Lv & No). split; [exact Lv|]. intros m p Q Ip. destruct (Cs m p Q) as [-> |(m' & Q')]; [cbn [oblocks] in Ip; rewrite moved_blocks in Ip; destruct Ip|exact (No m' p Q' Ip)].
    + intros m a b q Qi Qf. destruct (Cs m _ Qi) as [Em|(m' & Q')]; [injection Em as Em; exfalso; eapply moved_files; eauto|eapply Ab; eauto].
  - intros B Ac b Lv. destruct (Ac b Lv) as [Ib|(m & p & Qm & Ip)]; [auto|]. right. cbn [st_objs]. destruct (Nat.eq_dec m j) as [->|Nj].
    + rewrite Qo in Qm. injection Qm as <-. exists i, (Some o). split; [|exact Ip]. rewrite (nth_replace_neq _ j i) by auto. apply nth_replace_eq. exact Lp.
    + exists m, p. split; [|exact Ip]. rewrite nth_replace_neq by auto. rewrite nth_replace_neq; [exact Qm|]. intros ->. rewrite Qp in Qm. injection Qm as <-. cbn [oblocks] in Ip. rewrite B in Ip. destruct Ip.
Qed.

(** ** Every step *)
Definition opened (o : hop) : nat := match o with OpenBin _ (S _) _ => 1 | _ => 0 end.
Definition simulated (s : store obj) (v : list (option hval)) (A : list nat) (o : hop) (r : hseen) (v' : list (option hval)) : Prop :=
  exists s' A', hstep s o = OK (s', r) /\ H s' v' A' /\ length A' = length A + opened o /\ (no_overwrite v o -> acc s A -> acc s' A').

Lemma new_ok s v A o r h ob w X : H s v A -> hstep s o = OK (new_obj s h ob, r) -> length (st_heap s) <= length h -> (forall b, b < length (st_heap s) -> nth_error h b = nth_error (st_heap s) b) ->
  hrep h ob w -> (forall b, In b (hblocks ob) -> length (st_heap s) <= b) ->
  NoDup X -> (forall b, In b X -> length (st_heap s) <= b /\ (exists c, nth_error h b = Some (Some c)) /\ ~ In b (hblocks ob)) ->
  (forall a b q, ob = Bin a -> b_files a = Some (b, q) -> In b X) ->
  (forall K k t, w = VView K (Some k) t -> exists p o' w', ob = view p /\ nth_error (st_objs s) k = Some (Some o') /\ nth_error v k = Some (Some w') /\ src K o' w' p t) ->
  (forall b c, length (st_heap s) <= b -> nth_error h b = Some (Some c) -> In b (hblocks ob) \/ In b X) -> length X = opened o ->
  simulated s v A o r (v ++ [Some w]).
Proof.
  intros Hs E L F R Fr Xn Xl Xb Vw C Lx. destruct (H_new s v A h ob w X Hs L F R Fr Xn Xl Xb Vw) as (H' & Ac). exists (new_obj s h ob), (A ++ X). split; [exact E|]. split; [exact H'|]. split; [rewrite app_length; lia|]. auto.
Qed.

Lemma open_plot_ok s v A n bf : H s v A -> simulated s v A (OpenPlot n bf None) HDone (v ++ [Some (VPlot None)]).
Proof.
  intros Hs. destruct (d3_open (st_heap s) n bf None) as [h a] eqn:E. destruct (d3_open_ok _ _ _ _ _ _ E) as (W & K & R & D). eapply (new_ok s v A _ _ h (Plot a) _ []); auto.
  - cbn [hstep]. rewrite E. reflexivity.
  - apply (gr_len _ _ _ W).
  - apply (gr_old _ _ _ W).
  - exists a. split; [reflexivity|]. split; [eapply grow_good; eauto|]. auto.
  - intros b I. apply (gr_all _ _ _ W) in I. lia.
  - constructor.
  - intros b [].
  - discriminate.
  - discriminate.
  - intros b c L Q. left. apply (gr_all _ _ _ W). split; [exact L|eapply nth_lt; eauto].
Qed.
Lemma open_plot_fails_ok s v A n bf m : H s v A -> simulated s v A (OpenPlot n bf (Some m)) HThrown (v ++ [Some (VText m)]).
Proof.
  intros Hs. destruct (d3_open (st_heap s) n bf (Some m)) as [h a] eqn:E. destruct (d3_open_ok _ _ _ _ _ _ E) as (W & K & R & _).
  pose proof (grow_good _ _ _ W) as G. pose proof (good_same _ _ _ (d_ptrs_same a) G) as G1. change (d_err a :: d_rest a) with ([d_err a] ++ d_rest a) in G1. destruct (good_app _ _ _ G1) as (Ge & Gr & X).
  assert (Sa : same (d_ptrs (d3_set_err a None)) (d_rest a)) by (intros x; rewrite (d_ptrs_same (d3_set_err a None) x); reflexivity).
  destruct (d3_close_ok h (d3_set_err a None)) as (h' & E' & L' & F' & Fr'); [eapply good_same; [apply same_sym; exact Sa|exact Gr]|exact K|].
  assert (Old : forall b, ~ In b (ptr_blocks (d_rest a)) -> nth_error h' b = nth_error h b) by (intros b NI; apply Fr'; rewrite (same_blocks _ _ b Sa); exact NI).
  assert (Rin : forall b, In b (ptr_blocks (d_ptrs a)) <-> In b (ptr_blocks [d_err a]) \/ In b (ptr_blocks (d_rest a))) by (intros b; rewrite (same_blocks _ _ b (d_ptrs_same a)); apply in_blocks_cons).
  assert (Nr : forall b, In b (ptr_blocks (d_rest a)) -> length (st_heap s) <= b) by (intros b I; apply (gr_all _ _ _ W b); apply Rin; auto).
  eapply (new_ok s v A _ _ h' (Str {| s_data := At (d_err a); s_del := true |}) _ []); auto.
  - cbn [hstep]. rewrite E. unfold plot_failed. rewrite E'. reflexivity.
  - rewrite L'. apply (gr_len _ _ _ W).
  - intros b L. rewrite Old; [apply (gr_old _ _ _ W); exact L|]. intros I. apply Nr in I. lia.
  - exists (d_err a). split; [reflexivity|]. eapply srep_frame; [exact R|]. intros b I. apply Old. apply X. exact I.
  - intros b I. cbn [hblocks s_data s_del] in I. apply (gr_all _ _ _ W b). apply Rin. auto.
  - constructor.
  - intros b [].
  - discriminate.
  - discriminate.
  - intros b c L Q. left. cbn [hblocks s_data s_del]. assert (I : In b (ptr_blocks (d_ptrs a))) by (apply (gr_all _ _ _ W); split; [exact L|rewrite <- L'; eapply nth_lt; eauto]).
    apply Rin in I. destruct I as [I|I]; [exact I|]. apply (same_blocks _ _ b Sa) in I. rewrite (F' b I) in Q. discriminate.
Qed.

Definition extra (a : binh) : list nat := ptr_blocks [b_files a].
Lemma extra_files a b q : b_files a = Some (b, q) -> In b (extra a).
Proof. intros E. unfold extra. rewrite E. left. reflexivity. Qed.
Lemma extra_length a n ts r : b_ok a -> length (b_list a) = n -> length (extra a) = opened (OpenBin ts n r).
Proof.
  intros (_ & _ & F) L. unfold extra. destruct n; cbn [opened].
  - destruct (b_files a) as [[b o]|]; [|reflexivity]. destruct (b_list a); [|discriminate]. exfalso. apply (proj2 F); [discriminate|reflexivity].
  - destruct (b_files a) as [[b o]|]; [reflexivity|]. exfalso. apply (proj1 F); [destruct (b_list a); discriminate|reflexivity].
Qed.
Lemma open_bin_ok s v A ts n : H s v A -> simulated s v A (OpenBin ts n None) HDone (v ++ [Some (VBin n (flat_map tree_names ts) None)]).
Proof.
  intros Hs. destruct (bin_open (st_heap s) ts n None) as [h a] eqn:E. destruct (bin_open_ok _ _ _ _ _ _ E) as (W & K & L & R & N). pose proof (grow_good _ _ _ W) as G. change (b_files a :: b_ptrs a) with ([b_files a] ++ b_ptrs a) in G. destruct (good_app _ _ _ G) as (Gf & Gp & X).
  assert (Rin : forall b, length (st_heap s) <= b < length h <-> In b (extra a) \/ In b (ptr_blocks (b_ptrs a))) by (intros b; rewrite <- (gr_all _ _ _ W b); apply in_blocks_cons).
  eapply (new_ok s v A _ _ h (Bin a) _ (extra a)); auto.
  - cbn [hstep]. rewrite E. reflexivity.
  - apply (gr_len _ _ _ W).
  - apply (gr_old _ _ _ W).
  - exists a. split; [reflexivity|]. auto 6.
  - intros b I. apply (Rin b). right. exact I.
  - apply Gf.
  - intros b I. split; [apply (Rin b); auto|]. split; [eapply good_live; [exact Gf|exact I]|]. intros I'. exact (X b I I').
  - intros a' b q [= <-]. apply extra_files.
  - discriminate.
  - intros b c Lb Q. apply nth_lt in Q. apply or_comm. apply Rin. lia.
  - apply extra_length; assumption.
Qed.
Lemma open_bin_fails_ok s v A ts n m : H s v A -> simulated s v A (OpenBin ts n (Some m)) HThrown (v ++ [Some (VText m)]).
Proof.
  intros Hs. destruct (bin_open (st_heap s) ts n (Some m)) as [h a] eqn:E. destruct (bin_open_ok _ _ _ _ _ _ E) as (W & K & L & R & _). pose proof (grow_good _ _ _ W) as G. change (b_files a :: b_ptrs a) with ([b_files a] ++ b_ptrs a) in G. destruct (good_app _ _ _ G) as (Gf & Gp & X).
  assert (Rin : forall b, length (st_heap s) <= b < length h <-> In b (extra a) \/ In b (ptr_blocks (b_ptrs a))) by (intros b; rewrite <- (gr_all _ _ _ W b); apply in_blocks_cons).
  set (h1 := h ++ [Some m]). assert (Sd : strdup_opt h (b_err a) = OK (h1, Some (length h, 0))).
  { destruct (b_err a) as [[b o]|] eqn:Eb; [|destruct R]. unfold strdup_opt. apply strdup_one. exact R. }
  assert (Ext : forall b, b < length h -> nth_error h1 b = nth_error h b) by (intros b Lb; apply nth_error_app1; exact Lb).
  assert (Gp1 : good h1 (b_ptrs a)).
  { eapply good_frame; [exact Gp|]. intros b I. apply Ext. destruct (good_live _ _ _ Gp I) as (c & Q). eapply nth_lt; eauto. }
  destruct (bin_close_ok h1 a Gp1 K) as (h' & E' & L' & F' & Fr').
  { intros b o Ef. pose proof (extra_files _ _ _ Ef) as I. destruct (good_live _ _ _ Gf I) as (c & Q). split; [exists c; rewrite Ext; [exact Q|eapply nth_lt; eauto]|apply X; exact I]. }
  assert (Nb : forall b, In b (ptr_blocks (b_ptrs a)) -> length (st_heap s) <= b < length h) by (intros b I; apply Rin; auto).
  assert (Nx : forall b, In b (extra a) -> length (st_heap s) <= b < length h) by (intros b I; apply Rin; auto). pose proof (gr_len _ _ _ W) as Lw.
  assert (L1 : length h1 = length h + 1) by (unfold h1; rewrite app_length; reflexivity).
  eapply (new_ok s v A _ _ h' (Str {| s_data := At (Some (length h, 0)); s_del := true |}) _ (extra a)); auto.
  - cbn [hstep]. rewrite E. unfold bin_failed. rewrite Sd. cbn [bind]. rewrite E'. reflexivity.
  - lia.
  - intros b Lb. rewrite Fr' by (intros I; apply Nb in I; lia). rewrite Ext by lia. apply (gr_old _ _ _ W). exact Lb.
  - exists (Some (length h, 0)). split; [reflexivity|]. split; [reflexivity|]. rewrite Fr' by (intros I; apply Nb in I; lia). unfold h1. rewrite nth_error_app2, Nat.sub_diag by lia. reflexivity.
  - intros b [<-|[]]. exact Lw.
  - apply Gf.
  - intros b I. split; [apply Nx; exact I|]. split.
    + destruct (good_live _ _ _ Gf I) as (c & Q). exists c. rewrite Fr' by (apply X; exact I). rewrite Ext by (apply Nx; exact I). exact Q.
    + intros [<-|[]]. apply Nx in I. lia.
  - discriminate.
  - discriminate.
  - intros b c Lb Q. pose proof (nth_lt _ _ _ Q) as Lb'. destruct (Nat.eq_dec b (length h)) as [->|N]; [left; left; reflexivity|]. right.
    assert (I : In b (extra a) \/ In b (ptr_blocks (b_ptrs a))) by (apply Rin; lia). destruct I as [I|I]; [exact I|]. rewrite (F' b I) in Q. discriminate.
  - apply extra_length; assumption.
Qed.

(** Reads of a handle. *)
Lemma nth_forget_err_handle v j w : nth_error v j = Some (Some w) -> (forall K k t, w <> VView K k t) -> nth_error (everywhere (forget_err j) v) j = Some (Some w).
Proof. intros Q N. apply every_nth. exists w. split; [exact Q|]. apply forget_err_handle. exact N. Qed.
Lemma call_any s v A j c c32 r o w o' w' h h1 n : H s v A -> nth_error (st_objs s) j = Some (Some o) -> nth_error v j = Some (Some w) -> (forall K k t, w <> VView K k t) ->
  length h1 = length (st_heap s) -> (forall b, In b (ptr_blocks [obj_err o]) -> nth_error h1 b = Some None) -> (forall b, ~ In b (ptr_blocks [obj_err o]) -> nth_error h1 b = nth_error (st_heap s) b) ->
  grow h1 h n -> (forall b, In b (ptr_blocks [obj_err o]) -> In b (hblocks o)) ->
  (forall b, In b (hblocks o') -> (In b (hblocks o) /\ ~ In b (ptr_blocks [obj_err o])) \/ In b (ptr_blocks n)) -> (forall b, In b (hblocks o) -> ~ In b (ptr_blocks [obj_err o]) -> In b (hblocks o')) -> (forall b, In b (ptr_blocks n) -> In b (hblocks o')) ->
  hrep h o' w' -> (forall K k t, w' <> VView K k t) -> obj_names o' = obj_names o -> val_names w' = val_names w -> val_err w' = r ->
  (forall a b q, o' = Bin a -> b_files a = Some (b, q) -> exists a', o = Bin a' /\ b_files a' = Some (b, q)) ->
  (hstep s (Call j c c32 r) = (do s1 <- put_obj s h j (Some o'); match r with None => OK (s1, HDone) | Some _ => OK (thrown s1 h (view (obj_err o'))) end)) ->
  simulated s v A (Call j c c32 r) (match r with None => HDone | Some _ => HThrown end)
    (match r with None => replace (everywhere (forget_err j) v) j (Some w') | Some m => replace (everywhere (forget_err j) v) j (Some w') ++ [Some (VView OfError (Some j) m)] end).
Proof.
  intros Hs Qo Qw Nv L1 F1 Fr1 W Eb Bo Bk Bn R Nv' On Vn Ve Bf E. pose proof (nth_lt _ _ _ Qo) as Lo. pose proof (nth_forget_err_handle _ _ _ Qw Nv) as Qw'.
  pose proof (gr_len _ _ _ W) as Lh.
  assert (Old : forall b, b < length (st_heap s) -> ~ In b (hblocks o) -> nth_error h b = nth_error (st_heap s) b).
  { intros b Lb NI. rewrite (gr_old _ _ _ W) by lia. apply Fr1. intros I. apply NI. apply Eb. exact I. }
  destruct (H_put s _ A h j o w o' w' (H_forget_err _ _ _ j Hs) Qo Qw') as (H1 & Ac1); auto; try lia.
  - intros b I. destruct (Bo b I) as [(I' & _)|I']; [auto|]. right. apply (gr_all _ _ _ W) in I'. lia.
  - intros i K p t Q Sr. apply every_nth in Q. destruct Q as (y & _ & Ey). apply forget_err_view in Ey. destruct Ey as (_ & Ne). destruct K; [exfalso; apply Ne; reflexivity|]. destruct Sr as (k & Q1 & Q2). exists k. rewrite On, Vn. auto.
  - assert (Acc : forall b c, nth_error h b = Some (Some c) -> length (st_heap s) <= b \/ In b (hblocks o) -> In b (hblocks o')).
    { intros b x Q D. destruct (Nat.lt_ge_cases b (length (st_heap s))) as [Lb|Lb].
      - destruct D as [D|D]; [lia|]. apply Bk; [exact D|]. intros I. rewrite (gr_old _ _ _ W) in Q by lia. rewrite (F1 b I) in Q. discriminate.
      - apply Bn. apply (gr_all _ _ _ W). apply nth_lt in Q. lia. }
    assert (P : put_obj s h j (Some o') = OK {| st_heap := h; st_objs := replace (st_objs s) j (Some o') |}) by (unfold put_obj; rewrite aset_replace by exact Lo; reflexivity).
    rewrite P in E. cbn [bind] in E. destruct r as [m|].
    + set (s1 := {| st_heap := h; st_objs := replace (st_objs s) j (Some o') |}) in *.
      destruct (H_new s1 (replace (everywhere (forget_err j) v) j (Some w')) A h (view (obj_err o')) (VView OfError (Some j) m) []) as (H2 & Ac2); auto; try (intros; discriminate).
      * exists (obj_err o'). reflexivity.
      * intros b [].
      * constructor.
      * intros b [].
      * intros K k t [= <- <- <-]. exists (obj_err o'), o', w'. split; [reflexivity|]. split; [cbn [s1 st_objs]; apply nth_replace_eq; exact Lo|]. split; [apply nth_replace_eq; eapply nth_lt; eauto|]. split; [reflexivity|exact Ve].
      * exists (new_obj s1 h (view (obj_err o'))), (A ++ []). split; [exact E|]. split; [exact H2|]. split; [rewrite app_length; reflexivity|]. intros _ Ac. apply Ac2; [|apply Ac1; assumption].
        intros b x Lb Q. cbn [s1 st_heap] in Lb. apply nth_lt in Q. lia.
    + eexists _, A. split; [exact E|]. split; [exact H1|]. split; [cbn [opened]; lia|]. auto.
Qed.
Lemma read_plot_ok s v A j c c32 e r : H s v A -> nth_error v j = Some (Some (VPlot e)) ->
  simulated s v A (Call j c c32 r) (match r with None => HDone | Some _ => HThrown end)
    (match r with None => replace (everywhere (forget_err j) v) j (Some (VPlot None)) | Some m => replace (everywhere (forget_err j) v) j (Some (VPlot (Some m))) ++ [Some (VView OfError (Some j) m)] end).
Proof.
  intros Hs Qw. pose proof Hs as (I & _). destruct (inv_get hblocks hrep s v j _ I Qw) as (o & Qo & Ro & Go). destruct Ro as (a & -> & G & K & D & R).
  destruct (call_plot_ok (st_heap s) a c c32 r G K D) as (h1 & h & a' & n & E & W & L1 & F1 & Fr1 & Gr & Sa & K' & D' & R').
  assert (Bl : forall b, In b (ptr_blocks (d_ptrs a')) <-> In b (ptr_blocks (d_rest a)) \/ In b (ptr_blocks n)) by (intros b; rewrite (same_blocks _ _ b Sa), ptr_blocks_app, in_app_iff; reflexivity).
  assert (Bd : forall b, In b (ptr_blocks (d_ptrs a)) <-> In b (ptr_blocks [d_err a]) \/ In b (ptr_blocks (d_rest a))) by (intros b; rewrite (same_blocks _ _ b (d_ptrs_same a)); apply in_blocks_cons).
  assert (Dj : forall b, In b (ptr_blocks [d_err a]) -> ~ In b (ptr_blocks (d_rest a))).
  { pose proof (good_same _ _ _ (d_ptrs_same a) G) as G1. change (d_err a :: d_rest a) with ([d_err a] ++ d_rest a) in G1. apply (good_app _ _ _ G1). }
  assert (X := call_any s v A j c c32 r (Plot a) (VPlot e) (Plot a') (VPlot r) h h1 n Hs Qo Qw). cbn [obj_err hblocks obj_names val_names val_err] in X. destruct r as [m|]; apply X; clear X; auto; try (intros; discriminate).
  - intros b Ib. apply Bd. auto.
  - intros b Ib. apply Bl in Ib. destruct Ib as [Ib|Ib]; [|auto]. left. split; [apply Bd; auto|]. intros Ie. exact (Dj b Ie Ib).
  - intros b Ib Ne. apply Bd in Ib. apply Bl. tauto.
  - intros b Ib. apply Bl. auto.
  - exists a'. split; [reflexivity|]. split; [eapply good_same; [apply same_sym; exact Sa|]; eapply good_grow; eauto|]. auto.
  - cbn [hstep]. rewrite Go. cbn [bind]. rewrite E. reflexivity.
  - intros b Ib. apply Bd. auto.
  - intros b Ib. apply Bl in Ib. destruct Ib as [Ib|Ib]; [|auto]. left. split; [apply Bd; auto|]. intros Ie. exact (Dj b Ie Ib).
  - intros b Ib Ne. apply Bd in Ib. apply Bl. tauto.
  - intros b Ib. apply Bl. auto.
  - exists a'. split; [reflexivity|]. split; [eapply good_same; [apply same_sym; exact Sa|]; eapply good_grow; eauto|]. auto.
  - cbn [hstep]. rewrite Go. cbn [bind]. rewrite E. reflexivity.
Qed.
Lemma read_bin_ok s v A j c c32 n0 ns e r : H s v A -> nth_error v j = Some (Some (VBin n0 ns e)) ->
  simulated s v A (Call j c c32 r) (match r with None => HDone | Some _ => HThrown end)
    (match r with None => replace (everywhere (forget_err j) v) j (Some (VBin n0 ns None)) | Some m => replace (everywhere (forget_err j) v) j (Some (VBin n0 ns (Some m))) ++ [Some (VView OfError (Some j) m)] end).
Proof.
  intros Hs Qw. pose proof Hs as (I & _). destruct (inv_get hblocks hrep s v j _ I Qw) as (o & Qo & Ro & Go). destruct Ro as (a & -> & G & K & L & R & N).
  destruct (call_bin_ok (st_heap s) a r G) as (h1 & h & e' & E & W & L1 & F1 & Fr1 & Gr & R'). set (a' := bin_set_err a e') in *.
  assert (Sa : same (b_ptrs a') (b_rest a ++ [e'])) by (unfold b_ptrs, b_rest; cbn [a' bin_set_err b_list b_dir b_arr b_err]; psame).
  assert (Bl : forall b, In b (ptr_blocks (b_ptrs a')) <-> In b (ptr_blocks (b_rest a)) \/ In b (ptr_blocks [e'])) by (intros b; rewrite (same_blocks _ _ b Sa), ptr_blocks_app, in_app_iff; reflexivity).
  assert (Bd : forall b, In b (ptr_blocks (b_ptrs a)) <-> In b (ptr_blocks [b_err a]) \/ In b (ptr_blocks (b_rest a))) by (intros b; rewrite (same_blocks _ _ b (b_ptrs_same a)); apply in_blocks_cons).
  assert (Dj : forall b, In b (ptr_blocks [b_err a]) -> ~ In b (ptr_blocks (b_rest a))).
  { pose proof (good_same _ _ _ (b_ptrs_same a) G) as G1. change (b_err a :: b_rest a) with ([b_err a] ++ b_rest a) in G1. apply (good_app _ _ _ G1). }
  assert (Rp : hrep h (Bin a') (VBin n0 ns r)).
  { exists a'. split; [reflexivity|]. split; [eapply good_same; [apply same_sym; exact Sa|]; eapply good_grow; eauto|]. split; [exact K|]. split; [exact L|]. split; [exact R'|]. cbn [a' bin_set_err b_dir].
    eapply grow_sreps; [exact W|]. eapply sreps_frame; [exact N|]. intros b Ib. apply Fr1. intros Ie. apply (Dj b Ie). apply names_blocks. exact Ib. }
  assert (X := call_any s v A j c c32 r (Bin a) (VBin n0 ns e) (Bin a') (VBin n0 ns r) h h1 [e'] Hs Qo Qw). cbn [obj_err hblocks obj_names val_names val_err] in X. destruct r as [m|]; apply X; clear X; auto; try (intros; discriminate).
  - intros b Ib. apply Bd. auto.
  - intros b Ib. apply Bl in Ib. destruct Ib as [Ib|Ib]; [|auto]. left. split; [apply Bd; auto|]. intros Ie. exact (Dj b Ie Ib).
  - intros b Ib Ne. apply Bd in Ib. apply Bl. tauto.
  - intros b Ib. apply Bl. auto.
  - intros a0 b q [= <-] Q. exists a. auto.
  - cbn [hstep]. rewrite Go. cbn [bind]. rewrite E. reflexivity.
  - intros b Ib. apply Bd. auto.
  - intros b Ib. apply Bl in Ib. destruct Ib as [Ib|Ib]; [|auto]. left. split; [apply Bd; auto|]. intros Ie. exact (Dj b Ie Ib).
  - intros b Ib Ne. apply Bd in Ib. apply Bl. tauto.
  - intros b Ib. apply Bl. auto.
  - intros a0 b q [= <-] Q. exists a. auto.
  - cbn [hstep]. rewrite Go. cbn [bind]. rewrite E. reflexivity.
Qed.

(** Texts. *)
Lemma text_read s v A j w t : H s v A -> nth_error v j = Some (Some w) -> text_of w = Some t ->
  exists a, get_obj s j = OK (Str a) /\ nth_error (st_objs s) j = Some (Some (Str a)) /\ s_read (st_heap s) a = OK t.
Proof.
  intros (I & V & _) Qw Et. destruct (inv_get hblocks hrep s v j _ I Qw) as (o & Qo & Ro & Go). destruct w; cbn [text_of] in Et; try discriminate; cbn [hrep] in Ro.
  - injection Et as ->. destruct Ro as (p & -> & R). eexists. split; [exact Go|]. split; [exact Qo|]. apply read_one. exact R.
  - injection Et as ->. subst o. eexists. split; [exact Go|]. split; [exact Qo|]. reflexivity.
  - destruct owner as [k0|]; [|discriminate]. injection Et as ->. destruct (V j k k0 t Qw) as (p & o1 & w1 & Q1 & Q2 & Q3 & Sr). rewrite Q1 in Qo. injection Qo as <-. eexists. split; [exact Go|]. split; [exact Q1|].
    destruct (inv_get hblocks hrep s v k0 _ I Q3) as (o2 & Qo2 & Ro2 & _). rewrite Q2 in Qo2. injection Qo2 as <-. apply read_one. eapply src_read; eauto.
Qed.
Lemma nothing_ok s v A o r : H s v A -> hstep s o = OK (s, r) -> opened o = 0 -> simulated s v A o r v.
Proof. intros Hs E Z0. exists s, A. split; [exact E|]. split; [exact Hs|]. split; [lia|auto]. Qed.
Lemma text_new_ok s v A o r t : H s v A -> hstep s o = OK (new_obj s (st_heap s ++ [Some t]) (Str {| s_data := At (Some (length (st_heap s), 0)); s_del := true |}), r) -> opened o = 0 -> simulated s v A o r (v ++ [Some (VText t)]).
Proof.
  intros Hs E Z0. pose proof (grow_one (st_heap s) t) as W. eapply (new_ok s v A _ _ _ _ _ []); eauto; try (intros; discriminate).
  - apply (gr_len _ _ _ W).
  - apply (gr_old _ _ _ W).
  - eexists. split; [reflexivity|]. split; [reflexivity|]. rewrite nth_error_app2, Nat.sub_diag by lia. reflexivity.
  - intros b [<-|[]]. lia.
  - constructor.
  - intros b [].
  - intros b c Lb Q. left. left. apply nth_lt in Q. rewrite app_length in Q. cbn in Q. lia.
Qed.
Lemma view_new_ok s v A o r ob w : H s v A -> hstep s o = OK (new_obj s (st_heap s) ob, r) -> opened o = 0 -> hrep (st_heap s) ob w -> hblocks ob = [] -> (forall a, ob <> Bin a) ->
  (forall K k t, w = VView K (Some k) t -> exists p o' w', ob = view p /\ nth_error (st_objs s) k = Some (Some o') /\ nth_error v k = Some (Some w') /\ src K o' w' p t) -> simulated s v A o r (v ++ [Some w]).
Proof.
  intros Hs E Z0 R B N Vw. eapply (new_ok s v A _ _ _ _ _ []); eauto.
  - intros b. rewrite B. intros [].
  - constructor.
  - intros b [].
  - intros a b q Q. exfalso. exact (N a Q).
  - intros b c Lb Q. apply nth_lt in Q. lia.
Qed.

Theorem hstep_ok s v A o r v' : H s v A -> hvstep v o r v' -> simulated s v A o r v'.
Proof.
  intros Hs St. pose proof Hs as (I & V & Ar). destruct St.
  - apply open_plot_ok; exact Hs.
  - apply open_plot_fails_ok; exact Hs.
  - apply open_bin_ok; exact Hs.
  - apply open_bin_fails_ok; exact Hs.
  - exact (read_plot_ok s v A j c c32 e None Hs H1).
  - exact (read_plot_ok s v A j c c32 e (Some m) Hs H1).
  - exact (read_bin_ok s v A j c c32 n ns e None Hs H1).
  - exact (read_bin_ok s v A j c c32 n ns e (Some m) Hs H1).
  - destruct (inv_get hblocks hrep s v j _ I H1) as (o & Qo & (a & -> & _) & Go). apply nothing_ok; auto. cbn [hstep]. rewrite Go. reflexivity.
  - destruct (inv_get hblocks hrep s v j _ I H1) as (o & Qo & (a & -> & _) & Go). apply text_new_ok; auto. cbn [hstep]. rewrite Go. reflexivity.
  - destruct (inv_get hblocks hrep s v j _ I H1) as (o & Qo & (a & -> & _) & Go). eapply view_new_ok; try reflexivity; auto; try discriminate. cbn [hstep]. rewrite Go. reflexivity.
  - destruct (inv_get hblocks hrep s v j _ I H1) as (o & Qo & Ro & Go). pose proof Ro as (a & -> & _ & _ & _ & _ & N).
    destruct (nth_error (flat_map dent_names (b_dir a)) k) as [p|] eqn:Q.
    + eapply (view_new_ok _ _ _ _ _ (view p)); try reflexivity; auto; try discriminate.
      * cbn [hstep]. rewrite Go. cbn [bind]. rewrite (proj2 (aget_OK _ _ _) Q). reflexivity.
      * exists p. reflexivity.
      * intros K k' t' [= <- <- <-]. exists p, (Bin a), (VBin n ns e). split; [reflexivity|]. split; [exact Qo|]. split; [exact H1|]. exists k. split; [exact Q|exact H2].
    + exfalso. apply nth_error_None in Q. apply F2_length in N. rewrite map_length in N. apply nth_lt in H2. lia.
  - destruct (text_read s v A j w t Hs H1 H2) as (a & Go & Qo & Rd). apply nothing_ok; auto. cbn [hstep]. rewrite Go. cbn [bind]. rewrite Rd. reflexivity.
  - destruct (text_read s v A j w t Hs H1 H2) as (a & Go & Qo & Rd). apply text_new_ok; auto. cbn [hstep]. rewrite Go. cbn [bind]. unfold s_copy. rewrite Rd. reflexivity.
  - destruct (inv_get hblocks hrep s v j _ I H1) as (o & Qo & Ro & Go). destruct (move_new_H s v A j o w Hs Qo H1) as (H' & Ac). eexists _, A. split.
    + cbn [hstep]. rewrite Go. cbn [bind]. unfold put_obj. rewrite aset_replace by (eapply nth_lt; eauto). cbn [bind]. reflexivity.
    + split; [exact H'|]. split; [cbn [opened]; lia|]. auto.
  - destruct (inv_get hblocks hrep s v j _ I H1) as (o & Qo & Ro & Go). destruct (inv_get hblocks hrep s v i _ I H2) as (p & Qp & Rp & Gp). destruct (move_to_H s v A i j o w p x Hs H3 Qo H1 Qp H2 H4) as (H' & Ac). eexists _, A. split.
    + cbn [hstep]. rewrite Go, Gp. cbn [bind]. rewrite (rep_class _ _ _ _ _ _ Ro Rp H4). unfold put_obj. rewrite aset_replace by (eapply nth_lt; eauto). cbn [bind st_objs st_heap]. rewrite aset_replace by (rewrite replace_length; eapply nth_lt; eauto). cbn [bind]. reflexivity.
    + split; [exact H'|]. split; [cbn [opened]; lia|]. intros No Ac0. apply Ac; [|exact Ac0]. destruct (No i j x eq_refl H2) as [-> |[-> |[-> |[(t & ->)|(k & y & t & ->)]]]]; cbn [hrep] in Rp.
      * subst p. reflexivity.
      * destruct Rp as (a & -> & _ & (_ & Ka & _) & L & R & N). cbn [hblocks]. unfold b_ptrs. destruct (b_list a); [|discriminate]. inversion N as [Q|]. destruct (b_err a) as [[b q]|]; [destruct R|].
        destruct (b_dir a) as [|d ds]; [|exfalso; destruct d; discriminate]. cbn [mf_ptrs flat_map app]. destruct (b_arr a) as [q|]; [|reflexivity]. exfalso. apply (proj2 Ka); [discriminate|reflexivity].
      * subst p. reflexivity.
      * subst p. reflexivity.
      * destruct Rp as (q & ->). reflexivity.
  - destruct (inv_get hblocks hrep s v j _ I H1) as (o & Qo & Ro & Go).
    assert (X : exists h, obj_destroy (st_heap s) o = OK h /\ (forall b, In b (hblocks o) -> nth_error h b = Some None) /\ (forall b, ~ In b (hblocks o) -> nth_error h b = nth_error (st_heap s) b)).
    { destruct w; cbn [hrep] in Ro.
      - destruct Ro as (a & -> & G & K & _). destruct (d3_close_ok _ _ G K) as (h' & E & _ & F & Fr). exists h'. cbn [obj_destroy]. rewrite E. auto.
      - subst o. exists (st_heap s). split; [reflexivity|]. split; [intros b []|auto].
      - destruct Ro as (a & -> & G & K & _). destruct (bin_close_ok _ _ G K) as (h' & E & _ & F & Fr); [|exists h'; cbn [obj_destroy]; rewrite E; auto].
        intros b q Ef. destruct Ar as (_ & Al & Ab). destruct (Al b (Ab j a b q Qo Ef)) as (Lv & No). split; [exact Lv|]. exact (No j _ Qo).
      - destruct Ro as (p & -> & R). destruct p as [[b q]|]; [|destruct R]. destruct R as (-> & Qb). destruct (good_free (st_heap s) [Some (b, 0)]) as (h' & E & _ & F & Fr).
        + split; [repeat constructor; intros []|]. intros b' o' [[= <- <-]|[]]. eauto.
        + exists h'. cbn [obj_destroy s_destroy s_data s_del]. cbn [h_free_all] in E. destruct (h_free_opt (st_heap s) (Some (b, 0))); cbn [bind] in E; try discriminate. injection E as ->. auto.
      - subst o. exists (st_heap s). split; [reflexivity|]. split; [intros b []|auto].
      - destruct Ro as (p & ->). exists (st_heap s). split; [reflexivity|]. split; [intros b []|auto].
      - subst o. exists (st_heap s). split; [reflexivity|]. split; [intros b []|auto]. }
    destruct X as (h & E & F & Fr). destruct (destroy_H s v A h j o Hs Qo Fr) as (H' & Ac). eexists _, A. split.
    + cbn [hstep]. rewrite Go. cbn [bind]. rewrite E. cbn [bind]. unfold put_obj. rewrite aset_replace by (eapply nth_lt; eauto). cbn [bind]. reflexivity.
    + split; [exact H'|]. split; [cbn [opened]; lia|]. auto.
Qed.
