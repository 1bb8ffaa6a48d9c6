(** * C89: Python objects that look into others *)
From Verif Require Import CBase CBaseFacts SearchSpec SearchProofs KeyTableModel PropKeyTable CppKeyModel PropCppKey PyArrayModel PyLifeModel PyLifeSpec PyLifeProofs.
Open Scope nat_scope.
Open Scope list_scope.

(** As long as the object with the keywords (or the elements) exists, every
    object taken from it shows the part it was taken from, however many other
    files and arrays are opened and dropped in between. *)
Theorem C89_alive_partial : forall prog rs v, vruns [] prog rs v -> prun pstart prog = OK rs.
Proof. intros prog rs v R. exact (prun_ok [] prog rs v R pstart pinv_start). Qed.

(** After the last reference to the keywords went away, a card or a keyword
    that was taken from them reads freed memory. *)
Theorem C89_dropped_refuted : forall l name run k t i c, names_sorted (map kw_name l) -> is_cstr name -> named l name run ->
  nth_error run i = Some k -> nth_error (kw_cards k) c = Some t ->
  let prog := [OParse l; OName 0 name; OAt 1 i; OAt 2 c] in
  prun pstart (prog ++ [OUse 3]) = OK [SObject; SObject; SObject; SObject; SText t] /\
  prun pstart (prog ++ [ODrop 0; OUse 3]) = UB /\ prun pstart (prog ++ [ODrop 0; OUse 2]) = UB /\ prun pstart (prog ++ [ODrop 0; OAt 2 c]) = UB.
Proof.
  intros l name run k t i c So Cn Nm Ni Nc prog.
  assert (R : forall tl rs v, vruns [VKeywords l; VSlice 0 run; VKeyword 0 k; VCard 0 t] tl rs v -> vruns [] (prog ++ tl) ([SObject; SObject; SObject; SObject] ++ rs) v).
  { intros tl rs v R. cbn [prog app]. eapply L_step; [apply L_parse|]. eapply L_step; [eapply L_name; [reflexivity|exact So|exact Cn|exact Nm]|].
    eapply L_step; [eapply L_slice; [reflexivity|exact Ni]|]. eapply L_step; [eapply L_keyword; [reflexivity|exact I|exact Nc]|]. exact R. }
  split.
  { eapply C89_alive_partial. apply (R [OUse 3] [SText t]). eapply L_step; [eapply L_text; [reflexivity|exact I]|apply L_done]. }
  assert (Q : vruns [] prog [SObject; SObject; SObject; SObject] [VKeywords l; VSlice 0 run; VKeyword 0 k; VCard 0 t]).
  { rewrite <- (app_nil_r prog). exact (R [] [] _ (L_done _)). }
  destruct (prun_split _ _ _ _ Q pstart pinv_start) as (s & Iv & E). rewrite !E.
  destruct (pinv_obj s _ 0 _ Iv eq_refl) as (o0 & N0 & (b & -> & Hb) & P0).
  destruct (pinv_obj s _ 2 _ Iv eq_refl) as (o2 & N2 & (_ & b2 & i2 & -> & H2) & _).
  destruct (pinv_obj s _ 3 _ Iv eq_refl) as (o3 & N3 & (_ & b3 & i3 & c3 & -> & H3) & _).
  destruct (H2 I) as (l2 & (_ & T2) & _). destruct (H3 I) as (l3 & k3 & (_ & T3) & _). rewrite N0 in T2, T3. injection T2 as <-. injection T3 as <-.
  assert (D : exists s', pstep s (ODrop 0) = OK (s', SNone) /\ nth_error (ps_heap s') b = Some None /\
     nth_error (ps_objs s') 2 = Some (Some (PKeyword b i2)) /\ nth_error (ps_objs s') 3 = Some (Some (PCard b i3 c3))).
  { cbn [pstep]. rewrite P0. cbn [bind]. unfold pfree. rewrite (proj2 (aget_OK _ _ _) Hb). cbn [bind]. rewrite aset_replace by (eapply nth_some_lt; eauto). cbn [bind ps_objs ps_heap].
    rewrite aset_replace by (eapply nth_some_lt; eauto). cbn [bind]. eexists. split; [reflexivity|]. cbn [ps_heap ps_objs].
    rewrite nth_replace_eq by (eapply nth_some_lt; eauto). rewrite !nth_replace_neq by discriminate. auto. }
  destruct D as (s' & D & Hn & M2 & M3). cbn [prun]. rewrite D. cbn [bind].
  assert (K : forall i, pkeyword s' b i = UB). { intros. unfold pkeyword, pkeywords. rewrite (proj2 (aget_OK _ _ _) Hn). reflexivity. }
  cbn [pstep]. unfold pobj. rewrite (proj2 (aget_OK _ _ _) M2), (proj2 (aget_OK _ _ _) M3). cbn [bind]. rewrite !K. repeat split.
Qed.

Theorem C89_element_refuted : forall l i z, nth_error l i = Some z ->
  prun pstart [OArray l; OAt 0 i; OUse 1] = OK [SObject; SObject; SValue z] /\ prun pstart [OArray l; OAt 0 i; ODrop 0; OUse 1] = UB.
Proof.
  intros l i z N. split.
  - eapply C89_alive_partial. eapply L_step; [apply L_array|]. eapply L_step; [eapply L_element; [reflexivity|exact N]|].
    eapply L_step; [eapply L_value; [reflexivity|exact I]|apply L_done].
  - cbn [prun pstep pstart ps_heap ps_objs length app bind pobj aget nth_error parray]. unfold array_getitem, array_at. rewrite N. reflexivity.
Qed.

(** Two files; the second one is dropped while a card of the first is used. *)
Example C89_case : let k := fun (n : string) c => {| kw_name := bs n; kw_cards := c |} in
  prun pstart [OParse [k "A"%string []; k "B"%string [bs "x"; bs "y"]]; OParse [k "B"%string [bs "z"]]; OName 0 (bs "B"); OName 1 (bs "B"); OAt 2 0; OAt 4 1; OAt 4 2;
    ODrop 1; OUse 5; OUse 4; OAt 3 0; OArray [3; 4]%Z; OAt 7 1; ODrop 4; ODrop 2; OUse 8; OUse 5]
  = OK [SObject; SObject; SObject; SObject; SObject; SObject; SError; SNone; SText (bs "y"); SLen 2; SObject; SObject; SObject; SNone; SNone; SValue 4; SText (bs "y")].
Proof. reflexivity. Qed.
(** ... and it is one of the runs of the specification. *)
Example C89_case_spec : let k := fun (n : string) c => {| kw_name := bs n; kw_cards := c |} in
  exists rs v, vruns [] [OParse [k "A"%string []; k "B"%string [bs "x"; bs "y"]]; OParse [k "B"%string [bs "z"]]; OName 0 (bs "B"); OAt 2 0; OAt 3 1; ODrop 1; OUse 4] rs v /\
    rs = [SObject; SObject; SObject; SObject; SObject; SNone; SText (bs "y")].
Proof.
  intros k. do 2 eexists. split.
  - do 2 (eapply L_step; [apply L_parse|]).
    eapply L_step; [eapply (L_name _ 0 _ (bs "B") [k "B"%string [bs "x"; bs "y"]]); [reflexivity|apply sortedb_sound; reflexivity| |]|].
    + repeat constructor.
    + exists [k "A"%string []], []. split; [reflexivity|]. split; [intros x [[<-|[]]|[]]; discriminate|]. split; [intros x [<-|[]]; reflexivity|]. split; [discriminate|left; discriminate].
    + eapply L_step; [eapply L_slice; reflexivity|]. eapply L_step; [eapply L_keyword; [reflexivity|exact I|reflexivity]|].
      eapply L_step; [eapply L_drop; [reflexivity|discriminate]|]. eapply L_step; [eapply L_text; [reflexivity|exact I]|apply L_done].
  - reflexivity.
Qed.

Print Assumptions C89_alive_partial.
Print Assumptions C89_dropped_refuted.
Print Assumptions C89_element_refuted.
