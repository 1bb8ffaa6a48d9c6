(** * Which paths a timed read accepts *)
From Coq Require Import Sorting.Sorted.
From Verif Require Import CBase CBaseFacts SearchModel SearchSpec SearchProofs PathModel PathSpec PathProofs
  KeyTableModel KeyTableProofs BinDirModel BinDirSpec BinDirProofs BinModel BinSpec BinProofs TimedModel TimedSpec TimedProofs.

Lemma search_d_found : forall els fuel m cs pv, wf cs -> shows pv els -> ascii_str (pv_string pv) -> length els <= fuel ->
  exists o, search_d fuel (Folder m cs) pv = OK o /\ forall tp, o = Some tp -> exists rel i, subpath rel els /\ nd cs rel = Some (NFile i).
Proof.
  induction els as [|n els IH]; intros fuel m cs pv W Sh As L; [destruct Sh as (_ & _ & Q); discriminate|].
  destruct fuel as [|fuel]; [cbn in L; lia|]. cbn [search_d num_children search_in child].
  destruct (Z.eqb_spec (Z.of_nat (length cs)) 0) as [Q|Q]; [exists None; split; [reflexivity|discriminate]|].
  assert (Ne : cs <> []) by (intros ->; apply Q; reflexivity).
  pose proof (search_spec cs pv n els (wf_good _ W) Ne Sh As) as Se. pose proof (shows_advance pv n els Sh) as Ad.
  destruct (find_name n cs) as [c|] eqn:F.
  - destruct Se as (i & -> & Ni). cbn [bind]. unfold aget. rewrite Ni. cbn [bind]. destruct (find_name_some _ _ _ F) as (_ & En).
    destruct c as [k vt sz fi pos|k sub].
    + destruct els as [|n2 els]; [rewrite Ad|destruct Ad as (pv' & Ad & _); rewrite Ad]; cbn [bind].
      * exists (Some [i]). split; [reflexivity|]. intros tp _. exists [n], (vt, sz, fi, pos). split; [constructor|]. rewrite nd_cons, F. reflexivity.
      * exists None. split; [reflexivity|discriminate].
    + cbn [ename] in En. subst k. destruct els as [|n2 els]; [rewrite Ad; cbn [bind negb]; exists None; split; [reflexivity|discriminate]|].
      destruct Ad as (pv' & Ad & Sh' & Es & _). rewrite Ad. cbn [bind negb].
      destruct (IH fuel n sub pv' (wf_sub _ _ _ _ W F) Sh' ltac:(rewrite Es; exact As) ltac:(cbn in L |- *; lia)) as (o & Eo & Fo). rewrite Eo. cbn [bind].
      exists (option_map (cons i) o). split; [reflexivity|]. intros tp E. destruct o as [tp'|]; [|discriminate]. destruct (Fo tp' eq_refl) as (rel & j & Sb & N).
      exists (n :: rel), j. split; [apply sub_keep; exact Sb|]. rewrite nd_cons, F, node_folder. exact N.
  - rewrite Se. cbn [bind]. destruct els as [|n2 els]; [rewrite Ad; cbn [bind negb]; exists None; split; [reflexivity|discriminate]|].
    destruct Ad as (pv' & Ad & Sh' & Es & _). rewrite Ad. cbn [bind negb].
    destruct (IH fuel m cs pv' W Sh' ltac:(rewrite Es; exact As) ltac:(cbn in L |- *; lia)) as (o & Eo & Fo). exists o. split; [exact Eo|].
    intros tp E. destruct (Fo tp E) as (rel & j & Sb & N). exists rel, j. split; [apply sub_skip; exact Sb|exact N].
Qed.

Lemma first_d_entry_total cs : Forall ascii_str (map ename cs) -> (first_d_entry cs = OK None) \/
  exists a d b, cs = a ++ d :: b /\ first_d_entry cs = OK (Some d) /\ isd d = true /\ forall e, In e a -> isd e = false.
Proof.
  induction cs as [|e cs IH]; intros F; cbn [first_d_entry]; [left; reflexivity|]. inversion F; subst. rewrite isd_spec by assumption. cbn [bind].
  destruct (isd e) eqn:E; [right; exists [], e, cs; split; [reflexivity|split; [reflexivity|split; [exact E|intros ? []]]]|].
  destruct (IH H2) as [->|(a & d & b & -> & Q & Dd & N)]; [left; reflexivity|]. right. exists (e :: a), d, b. split; [reflexivity|]. split; [exact Q|]. split; [exact Dd|].
  intros x [<-|I]; [exact E|exact (N x I)].
Qed.

(** The loop below a folder, [els]: the elements of the path behind the current
    one. *)
Definition found_in (cs : list entry) (els : list (list Z)) : Prop :=
  exists fld rest folder d rel i, els = fld ++ rest /\ rest <> [] /\ children_at cs fld = Some folder /\ find_name (List.hd [] rest) folder = None /\
    first_d_entry folder = OK (Some d) /\ subpath rel rest /\ node_of d rel = Some (NFile i).

Lemma search_timed_loop_found variable : forall els e fuel cs pv, wf cs -> shows pv (e :: els) -> ascii_str (pv_string pv) ->
  length els < fuel -> length els <= S (length variable) -> (forall p sub n d, children_at cs p = Some sub -> find_name n sub = Some d -> isd d = true -> is_folder d = true) ->
  exists r, search_timed_loop fuel variable cs pv = OK r /\ match r with inl m => length m <= length variable + 80 | inr _ => found_in cs els end.
Proof.
  induction els as [|x els IH]; intros e fuel cs pv W Sh As L Lv Sp; (destruct fuel as [|fuel]; [lia|]); cbn [search_timed_loop];
    pose proof (shows_advance pv _ _ Sh) as Ad.
  - rewrite Ad. cbn [bind negb]. eexists. split; [reflexivity|]. cbv beta iota; rewrite ?app_length; cbn; lia.
  - destruct Ad as (pv' & Ad & Sh' & Es & _). rewrite Ad. cbn [bind negb]. assert (As' : ascii_str (pv_string pv')) by (rewrite Es; exact As).
    assert (NV : length (no_variable variable) <= length variable + 80) by (unfold no_variable; rewrite ?app_length; cbn; lia).
    destruct cs as [|c0 cs]; [eexists; split; [reflexivity|exact NV]|]. set (cc := c0 :: cs) in *.
    pose proof (search_spec cc pv' x els (wf_good _ W) ltac:(discriminate) Sh' As') as Se. destruct (find_name x cc) as [c|] eqn:F.
    + destruct Se as (i & -> & Ni). cbn [bind]. unfold aget. rewrite Ni. cbn [bind]. destruct c as [k vt sz fi pos|k sub].
      * pose proof (shows_advance pv' _ _ Sh') as Ad'. destruct els as [|y els]; [rewrite Ad'|destruct Ad' as (p2 & -> & _)]; cbn [bind]; eexists; (split; [reflexivity|]); [|exact NV].
        cbv beta iota; rewrite ?app_length; cbn; lia.
      * destruct (IH x fuel sub pv' (wf_sub _ _ _ _ W F) Sh' As' ltac:(cbn in L; lia) ltac:(cbn in Lv; lia)) as (r & Er & Fr).
        { intros p sb n d C. apply (Sp (x :: p) sb n d). cbn [children_at]. rewrite F. exact C. }
        exists r. split; [exact Er|]. destruct r as [m|]; [exact Fr|]. destruct Fr as (fld & rest & folder & d & rel & j & -> & Nr & C & Fn & Fd & Sb & N).
        exists (x :: fld), rest, folder, d, rel, j. split; [reflexivity|]. split; [exact Nr|]. split; [cbn [children_at]; rewrite F; exact C|auto].
    + rewrite Se. cbn [bind]. destruct (first_d_entry_total cc (proj2 (wf_good _ W))) as [Q|(a & d & b & Ec & Fd & Dd & Na)].
      * rewrite Q. cbn [bind]. eexists. split; [reflexivity|exact NV].
      * rewrite Fd. cbn [bind].
        assert (Fi : find_name (ename d) cc = Some d) by (apply (good_nth cc (ename d) d (length a) (wf_good _ W)); [rewrite Ec, nth_error_app2, Nat.sub_diag by lia; reflexivity|reflexivity]).
        pose proof (Sp [] cc (ename d) d eq_refl Fi Dd) as Fo. destruct d as [|dn sub]; [discriminate Fo|].
        destruct (search_d_found (x :: els) (S (length variable)) dn sub pv' (wf_sub _ _ _ _ W Fi) Sh' As' Lv) as (o & Eo & So). rewrite Eo. cbn [bind].
        destruct o as [tp|]; [|eexists; split; [reflexivity|exact NV]]. destruct (So tp eq_refl) as (rel & j & Sb & N). eexists. split; [reflexivity|].
        exists [], (x :: els), cc, (Folder dn sub), rel, j. split; [reflexivity|]. split; [discriminate|]. split; [reflexivity|]. split; [exact F|]. split; [exact Fd|]. split; [exact Sb|].
        rewrite node_folder. exact N.
Qed.

(** The path leads to an entry: no time step is looked into. *)
Definition there_message (variable : cstr) (n : option node) : cstr :=
  match n with Some (NFile _) => bs "The variable """ ++ variable ++ bs """ is not timed"
  | _ => bs "The variable """ ++ variable ++ bs """ is either metadata (not timed) or does not exist" end.
Lemma search_timed_loop_there variable : forall els e fuel cs pv, wf cs -> shows pv (e :: els) -> ascii_str (pv_string pv) ->
  length els < fuel -> nd cs els <> None -> search_timed_loop fuel variable cs pv = OK (inl (there_message variable (nd cs els))).
Proof.
  induction els as [|x els IH]; intros e fuel cs pv W Sh As L Hn; (destruct fuel as [|fuel]; [lia|]); cbn [search_timed_loop];
    pose proof (shows_advance pv _ _ Sh) as Ad.
  - rewrite Ad. reflexivity.
  - destruct Ad as (pv' & Ad & Sh' & Es & _). rewrite Ad. cbn [bind negb]. assert (As' : ascii_str (pv_string pv')) by (rewrite Es; exact As).
    rewrite nd_cons in Hn |- *. destruct (find_name x cs) as [c|] eqn:F; [|congruence]. destruct cs as [|c0 cs]; [discriminate|]. set (cc := c0 :: cs) in *.
    pose proof (search_spec cc pv' x els (wf_good _ W) ltac:(discriminate) Sh' As') as Se. rewrite F in Se. destruct Se as (i & -> & Ni). cbn [bind]. unfold aget. rewrite Ni. cbn [bind].
    destruct c as [k vt sz fi pos|k sub].
    + destruct els as [|y els]; [|cbn in Hn; congruence]. rewrite (shows_advance pv' _ _ Sh'). reflexivity.
    + rewrite node_folder in Hn |- *. apply (IH x fuel sub pv' (wf_sub _ _ _ _ W F) Sh' As' ltac:(cbn in L; lia) Hn).
Qed.

Lemma search_timed_there b variable : wf (b_dir b) -> ascii_str variable -> absolute variable -> (forall n i, nd (b_dir b) [n] <> Some (NFile i)) -> nd (b_dir b) (elements variable) <> None ->
  search_timed b variable = OK (inl (match b_dir b, elements variable with [], _ => bs "The binout directory is empty" | _, [] => bs "The path """ ++ variable ++ bs """ is too short"
    | _, _ => there_message variable (nd (b_dir b) (elements variable)) end)).
Proof.
  intros W As Ab Top Hn. unfold search_timed. destruct (b_dir b) as [|c0 cs] eqn:Ed; [reflexivity|]. set (cc := c0 :: cs) in *.
  destruct (new_advance variable (ascii_c _ As) Ab) as (pv & E1 & Es & E2). rewrite E1. cbn [bind]. destruct (elements variable) as [|x els] eqn:El.
  - rewrite E2. reflexivity.
  - destruct E2 as (pv' & -> & Es' & Sh). cbn [bind negb]. assert (As' : ascii_str (pv_string pv')) by (rewrite Es'; exact As).
    rewrite nd_cons in Hn |- *. destruct (find_name x cc) as [c|] eqn:F; [|congruence].
    pose proof (search_spec cc pv' x els (wf_good _ W) ltac:(discriminate) Sh As') as Se. rewrite F in Se. destruct Se as (i & -> & Ni). cbn [bind]. unfold aget. rewrite Ni. cbn [bind].
    pose proof (elements_length_le variable) as L. rewrite El in L. cbn [length] in L.
    destruct c as [k vt sz fi pos|k sub]; [exfalso; apply (Top x (vt, sz, fi, pos)); rewrite nd_cons, F; reflexivity|].
    rewrite node_folder in Hn |- *. apply (search_timed_loop_there variable els x _ sub pv' (wf_sub _ _ _ _ W F) Sh As'); [lia|exact Hn].
Qed.

Lemma search_timed_found b variable : wf (b_dir b) -> ascii_str variable -> absolute variable ->
  (forall p sub n d, children_at (b_dir b) p = Some sub -> find_name n sub = Some d -> isd d = true -> is_folder d = true) ->
  exists r, search_timed b variable = OK r /\ match r with inl m => length m <= length variable + 80
    | inr _ => exists x els, elements variable = x :: els /\ exists m sub, find_name x (b_dir b) = Some (Folder m sub) /\ found_in sub els end.
Proof.
  intros W As Ab Sp. unfold search_timed. destruct (b_dir b) as [|c0 cs] eqn:Ed; [eexists; split; [reflexivity|cbn; lia]|]. set (cc := c0 :: cs) in *.
  destruct (new_advance variable (ascii_c _ As) Ab) as (pv & E1 & Es & E2). rewrite E1. cbn [bind]. destruct (elements variable) as [|x els] eqn:El.
  - rewrite E2. cbn [bind negb]. eexists. split; [reflexivity|]. cbv beta iota; rewrite ?app_length; cbn; lia.
  - destruct E2 as (pv' & -> & Es' & Sh). cbn [bind negb]. assert (As' : ascii_str (pv_string pv')) by (rewrite Es'; exact As).
    assert (NV : length (no_variable variable) <= length variable + 80) by (unfold no_variable; rewrite ?app_length; cbn; lia).
    pose proof (search_spec cc pv' x els (wf_good _ W) ltac:(discriminate) Sh As') as Se. destruct (find_name x cc) as [c|] eqn:F; [|rewrite Se; cbn [bind]; eexists; split; [reflexivity|exact NV]].
    destruct Se as (i & -> & Ni). cbn [bind]. unfold aget. rewrite Ni. cbn [bind].
    pose proof (elements_length_le variable) as L. rewrite El in L. cbn [length] in L.
    destruct c as [k vt sz fi pos|k sub]; [eexists; split; [reflexivity|exact NV]|].
    destruct (search_timed_loop_found variable els x (S (length variable)) sub pv' (wf_sub _ _ _ _ W F) Sh As' ltac:(lia) ltac:(lia)) as (r & Er & Fr).
    { intros p sb n d C. apply (Sp (x :: p) sb n d). cbn [children_at]. rewrite F. exact C. }
    exists r. split; [exact Er|]. destruct r as [m|]; [exact Fr|]. exists x, els. split; [reflexivity|]. exists k, sub. auto.
Qed.

(** In terms of the history. *)
Lemma d_folders ops dir : denotes ops dir -> noclash ops -> specials_are_folders ops ->
  forall p sub n d, children_at dir p = Some sub -> find_name n sub = Some d -> isd d = true -> is_folder d = true.
Proof.
  intros D Nc Sp p sub n d C F Dd. destruct d as [k vt sz fi pos|]; [|reflexivity]. exfalso. destruct (find_name_some _ _ _ F) as (_ & En). cbn [ename] in En. subst k.
  pose proof (proj2 D (p ++ [n])) as Q. rewrite (nd_app dir p sub [n] C), nd_cons, F in Q. cbn in Q. destruct Q as (a & b & Q & _).
  assert (I : In (p ++ [n], (vt, sz, fi, pos)) (records [] ops)) by (rewrite Q; apply in_or_app; right; left; reflexivity).
  apply records_name in I as (c & m & E & I & _). apply app_inj_tail in E as (_ & <-). destruct (Sp _ _ I) as (N & _). apply N. apply d_nameb_spec. exact Dd.
Qed.
Lemma first_entry_step ops dir p cs d : denotes ops dir -> noclash ops -> children_at dir p = Some cs -> first_d_entry cs = OK (Some d) ->
  first_step ops p (ename d) /\ find_name (ename d) cs = Some d.
Proof.
  intros D Nc C E. pose proof (proj1 D p cs C) as G. destruct (first_d_entry_spec cs G) as (o & Eo & H). rewrite E in Eo. injection Eo as <-. destruct H as (I & Dd & M).
  pose proof (children_exists ops dir p cs D Nc C) as St. split; [|apply In_nth_error in I as (k & I); eapply good_nth; [exact G|exact I|reflexivity]].
  split; [apply d_nameb_spec; exact Dd|]. split; [apply St, in_map, I|]. intros d' Hd' Ed'. apply St in Ed'. apply in_map_iff in Ed' as (e' & <- & I'). apply d_nameb_spec in Hd'. apply M; assumption.
Qed.

Lemma timed_fails_short m v s : length m < 1024 -> timed_fails v s m = OK {| t_data := None; t_values := v; t_steps := s; t_error := Some m |}.
Proof. intros L. unfold timed_fails, error_string. rewrite (proj2 (Nat.ltb_lt _ _) L). reflexivity. Qed.
