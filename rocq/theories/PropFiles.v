(** * Property C95: all queries of an opened binout answer from its files *)
From Coq Require Import Sorting.Sorted.
From Verif Require Import CBase CBaseFacts SearchModel SearchSpec SearchProofs PathModel PathSpec PathProofs
  KeyTableModel KeyTableProofs BinDirModel BinDirSpec BinDirProofs BinModel BinSpec BinProofs TimedModel TimedSpec
  PyBinoutModel PyBinoutSpec FilesSpec FilesProofs.
From Verif Require PropBin PropBinDir PropTimed PropPyBinout.

(** The files can be opened: everything below is about an existing [b]. *)
Theorem C95_opens : forall fuel pattern files bad, usable fuel files bad ->
  exists b, binout_open fuel pattern (map on_disk files ++ bad) = OK b.
Proof.
  intros fuel pattern files bad (Ne & L & Fo & Nc & Fu & Rj). destruct (PropBin.C28_rejected_last_partial fuel pattern files bad Ne L Fo Nc Fu Rj) as (b & _ & E & _). eauto.
Qed.

(** A variable exists if and only if a DATA record was written for it; its
    type is that of the last one. *)
Theorem C95_variable : forall fuel pattern files bad b, usable fuel files bad -> binout_open fuel pattern (map on_disk files ++ bad) = OK b ->
  forall path, ascii_str path -> absolute path ->
    (has_variable files (elements path) -> variable_exists b path = OK true) /\
    (~ has_variable files (elements path) -> variable_exists b path = OK false) /\
    (forall t bytes, holds files (elements path) t bytes -> get_type_id b path = OK (t, None)).
Proof.
  intros fuel pattern files bad b U E path As Ab. destruct (opened _ _ _ _ _ U E) as (ops & T).
  destruct (PropBinDir.C23_lookup_partial ops (told_ok _ _ _ T)) as (dir & cur & R & L). destruct (told_run _ _ _ T) as (cur' & R'). rewrite R in R'. injection R' as -> _.
  destruct (L path As Ab) as (o & Lo & G). unfold get_file in G. unfold variable_exists, get_type_id.
  destruct (path_view_new path) as [pv| |]; try discriminate. cbn [bind] in *. rewrite G. cbn [bind].
  split; [|split].
  - intros V. destruct o as [[[[vt sz] fi] pos]|]; [reflexivity|]. exfalso. apply (told_variable T) in V as (i & I). exact (Lo i I).
  - intros V. destruct o as [[[[vt sz] fi] pos]|]; [|reflexivity]. exfalso. apply V. apply (told_variable T). eexists. eapply last_record_in. exact Lo.
  - intros t bytes H. destruct (told_last T _ _ _ H) as (sz' & fi' & pos' & L' & _). pose proof (last_record_unique _ _ _ _ Lo L') as ->. reflexivity.
Qed.

(** A variable that does not exist: the invalid type and an error that names it. *)
Theorem C95_missing : forall fuel pattern files bad b, usable fuel files bad -> binout_open fuel pattern (map on_disk files ++ bad) = OK b ->
  forall path, ascii_str path -> absolute path -> ~ has_variable files (elements path) -> length path + 21 < 1024 ->
    get_type_id b path = OK (255%Z, Some ([34%Z] ++ path ++ [34%Z] ++ bs " has not been found")).
Proof.
  intros fuel pattern files bad b U E path As Ab V Ln. destruct (C95_variable fuel pattern files bad b U E path As Ab) as (_ & N & _). specialize (N V).
  unfold variable_exists in N. unfold get_type_id. destruct (path_view_new path) as [pv| |]; try discriminate. cbn [bind] in *.
  destruct (directory_get_file (b_dir b) pv) as [o| |]; try discriminate. cbn [bind] in *. destruct o; [discriminate|].
  unfold error_string. replace (length _ <? 1024) with true; [reflexivity|]. symmetry. apply Nat.ltb_lt. rewrite !app_length. cbn [length bs]. change (length (bs """")) with 1. change (length (bs """ has not been found")) with 20. lia.
Qed.

(** The children of a folder are its entries, each once, in ascending order. *)
Theorem C95_children : forall fuel pattern files bad b, usable fuel files bad -> binout_open fuel pattern (map on_disk files ++ bad) = OK b ->
  forall path, ascii_str path -> absolute path -> has_folder files (elements path) ->
    exists l, entries files (elements path) l /\ binout_get_children b path = OK (Some l).
Proof.
  intros fuel pattern files bad b U E path As Ab F. destruct (opened _ _ _ _ _ U E) as (ops & T).
  destruct (PropBinDir.C24_listing_partial ops (told_ok _ _ _ T)) as (dir & cur & R & L). destruct (told_run _ _ _ T) as (cur' & R'). rewrite R in R'. injection R' as -> _.
  destruct (L path As Ab) as (A & _). destruct A as (cs & G & Sn & I).
  { destruct (elements path) as [|x els] eqn:El; [left; reflexivity|right]. apply (told_folder T); [discriminate|exact F]. }
  exists (map ename cs). split.
  - split; [exact Sn|]. intros n. rewrite I. apply (told_root_entry T).
  - unfold get_children in G. unfold binout_get_children. destruct (path_view_new path); try discriminate. cbn [bind] in *. rewrite G. reflexivity.
Qed.

(** Anything else has no children; but below an empty folder there is no error. *)
Theorem C95_no_folder : forall fuel pattern files bad b, usable fuel files bad -> binout_open fuel pattern (map on_disk files ++ bad) = OK b ->
  forall path, ascii_str path -> absolute path -> ~ has_folder files (elements path) ->
    (under_empty files (elements path) -> binout_get_children b path = OK (Some [])) /\
    (~ under_empty files (elements path) -> binout_get_children b path = OK None).
Proof.
  intros fuel pattern files bad b U E path As Ab F. destruct (opened _ _ _ _ _ U E) as (ops & T).
  destruct (PropBinDir.C24_listing_partial ops (told_ok _ _ _ T)) as (dir & cur & R & L). destruct (told_run _ _ _ T) as (cur' & R'). rewrite R in R'. injection R' as -> _.
  assert (Fo : forall a, a = [] \/ is_folder_path ops a <-> has_folder files a).
  { intros a. destruct a as [|x a]; [split; [left; reflexivity|auto]|]. rewrite <- (told_folder T) by discriminate. split; [intros [Q|Q]; [discriminate|exact Q]|auto]. }
  destruct (L path As Ab) as (_ & A). destruct A as (A1 & A2); [rewrite Fo; exact F|].
  assert (Em : below_empty ops (elements path) <-> under_empty files (elements path)).
  { split; intros (a & c & Ea & Nc & Fa & N); exists a, c; (split; [exact Ea|]; split; [exact Nc|]; split; [apply Fo; exact Fa|]); intros n.
    - intros H. apply (told_root_entry T) in H. destruct (N n) as [N1 N2]. destruct H as [H|[i H]]; [exact (N1 H)|exact (N2 i H)].
    - split; [intros H; apply (N n), (told_root_entry T); left; exact H|intros i H; apply (N n), (told_root_entry T); right; exists i; exact H]. }
  unfold get_children in *. unfold binout_get_children. destruct (path_view_new path) as [pv| |]; cbn [bind] in *.
  - split; intros B; [rewrite A1 by (apply Em; exact B)|rewrite A2 by (rewrite Em; exact B)]; reflexivity.
  - split; intros B; [rewrite <- Em in B; specialize (A1 B); discriminate|rewrite <- Em in B; specialize (A2 B); discriminate].
  - split; intros B; [rewrite <- Em in B; specialize (A1 B); discriminate|rewrite <- Em in B; specialize (A2 B); discriminate].
Qed.
Print Assumptions C95_no_folder.

(** The number of time steps of a folder without variables of its own. *)
Theorem C95_count_partial : forall fuel pattern files bad b, usable fuel files bad -> binout_open fuel pattern (map on_disk files ++ bad) = OK b ->
  forall path, ascii_str path -> absolute path -> has_folder files (elements path) -> only_steps files (elements path) ->
    (forall n, ~ has_variable files (elements path ++ [n])) ->
    exists steps, time_steps files (elements path) steps /\ num_timesteps b path = OK (Some (length steps)).
Proof.
  intros fuel pattern files bad b U E path As Ab F Os Nv. destruct (opened _ _ _ _ _ U E) as (ops & T).
  destruct (PropTimed.C30_count_partial ops (told_ok _ _ _ T)) as (dir & cur & R & L). destruct (told_run _ _ _ T) as (cur' & R'). rewrite R in R'. injection R' as -> _.
  destruct (L b path eq_refl As Ab) as (steps & St & N).
  - destruct (elements path) as [|x els] eqn:El; [left; reflexivity|right]. apply (told_folder T); [discriminate|exact F].
  - apply (told_tidy T). exact Os.
  - intros n i I. apply (Nv n). apply (told_variable T). eauto.
  - exists steps. split; [apply (told_steps T); exact St|exact N].
Qed.

(** Timed reads: if all time steps of a folder hold the variable with the same
    number of bytes and the same entries on the way to it, the result is the
    bytes of the steps, one after the other in the order of the steps. *)
Theorem C95_timed_partial : forall fuel pattern files bad b, usable fuel files bad -> binout_open fuel pattern (map on_disk files ++ bad) = OK b ->
  forall variable fld rel steps rows size t values0 steps0,
    ascii_str variable -> absolute variable -> elements variable = fld ++ rel -> fld <> [] -> rel <> [] ->
    has_folder files fld -> ~ has_entry files (fld ++ [List.hd [] rel]) -> only_steps files fld -> time_steps files fld steps -> steps <> [] ->
    Forall2 (fun d row => exists t', holds files (fld ++ d :: rel) t' row) steps rows -> Forall (fun row => Z.of_nat (length row) = size) rows ->
    Forall (alike files fld rel (List.hd [] steps)) steps ->
    (0 <= t)%Z -> (0 < size / element_bytes t)%Z -> (size * Z.of_nat (length steps) < 2 ^ 64)%Z ->
    read_timed b variable values0 steps0 t =
      OK {| t_data := Some (concat rows); t_values := (size / element_bytes t)%Z; t_steps := Z.of_nat (length steps); t_error := None |}.
Proof.
  intros fuel pattern files bad b U E. destruct (opened _ _ _ _ _ U E) as (ops & T).
  destruct (PropTimed.C31_regular_partial ops (told_ok _ _ _ T)) as (dir & cur & R & L). destruct (told_run _ _ _ T) as (cur' & R'). rewrite R in R'. injection R' as -> _.
  intros variable fld rel steps rows size t v0 s0 As Ab El Nf Nr F Ne Os Ts Ns Rows Sz Al Ht Hs Hb.
  apply (L b variable fld rel steps rows size t v0 s0); auto.
  - apply (told_folder T); assumption.
  - rewrite (told_root_entry T). exact Ne.
  - apply (told_tidy T). exact Os.
  - apply (told_steps T). exact Ts.
  - eapply Forall2_impl_in; [|exact Rows]. intros d row (t' & H). destruct (told_last T _ _ _ H) as (sz & fi & pos & La & _ & Hy). exists (t', sz, fi, pos). auto.
  - eapply Forall_impl; [|exact Al]. intros d H. apply (told_alike T). exact H.
Qed.

(** Python's read of the path of a variable, of a variable below "metadata"
    whose path leaves this element out, and of a variable of the time steps. *)
Theorem C95_python_partial : forall fuel pattern files bad b, usable fuel files bad -> plain_names files -> binout_open fuel pattern (map on_disk files ++ bad) = OK b ->
  (forall s t bytes, ascii_str s -> holds files (elements s) t bytes -> (1 <= t <= 10)%Z -> bytes <> [] ->
     py_read b s = OK (Returns (PArray t (Z.of_nat (length bytes) / element_bytes t) bytes))) /\
  (forall s fld e rest t bytes, ascii_str s -> elements s = fld ++ e :: rest -> fld <> [] -> ~ has_entry files (fld ++ [e]) ->
     holds files (fld ++ bs "metadata" :: e :: rest) t bytes -> (1 <= t <= 10)%Z -> bytes <> [] ->
     py_read b s = OK (Returns (PArray t (Z.of_nat (length bytes) / element_bytes t) bytes))) /\
  (forall s fld rel steps rows t n, ascii_str s -> elements s = fld ++ rel -> fld <> [] -> rel <> [] ->
     has_folder files fld -> ~ has_entry files (fld ++ [List.hd [] rel]) -> ~ has_entry files (fld ++ [bs "metadata"; List.hd [] rel]) ->
     only_steps files fld -> time_steps files fld steps -> steps <> [] ->
     Forall2 (fun d row => exists t', holds files (fld ++ d :: rel) t' row) steps rows ->
     (exists row, holds files (fld ++ List.hd [] steps :: rel) t row) -> (1 <= t <= 10)%Z ->
     Forall (fun row => Z.of_nat (length row) = (n * element_bytes t)%Z) rows ->
     Forall (alike files fld rel (List.hd [] steps)) steps ->
     (0 < n)%Z -> (n * element_bytes t * Z.of_nat (length steps) < 2 ^ 64)%Z ->
     py_read b s = OK (Returns (PRows t n rows))).
Proof.
  intros fuel pattern files bad b U Pl E. destruct (opened _ _ _ _ _ U E) as (ops & T). pose proof (told_plain T Pl) as Sp.
  destruct (told_run _ _ _ T) as (cur' & R'). split; [|split].
  - intros s t bytes As H Ht Nb. destruct (PropPyBinout.C84_variable ops (told_ok _ _ _ T) Sp) as (dir & cur & R & L). rewrite R in R'. injection R' as -> _.
    destruct (told_last T _ _ _ H) as (sz & fi & pos & La & -> & Hy). apply (L b s t (Z.of_nat (length bytes)) fi pos bytes); auto. destruct bytes; [congruence|cbn [length]; lia].
  - intros s fld e rest t bytes As El Nf Ne H Ht Nb. destruct (PropPyBinout.C84_metadata ops (told_ok _ _ _ T) Sp) as (dir & cur & R & L). rewrite R in R'. injection R' as -> _.
    destruct (told_last T _ _ _ H) as (sz & fi & pos & La & -> & Hy). apply (L b s fld e rest t (Z.of_nat (length bytes)) fi pos bytes); auto.
    + rewrite (told_root_entry T). exact Ne.
    + destruct bytes; [congruence|cbn [length]; lia].
  - intros s fld rel steps rows t n As El Nf Nr F Ne Nm Os Ts Ns Rows (row0 & H0) Ht Sz Al Hn Hb.
    destruct (PropPyBinout.C84_timed ops (told_ok _ _ _ T) Sp) as (dir & cur & R & L). rewrite R in R'. injection R' as -> _.
    apply (L b s fld rel steps rows (n * element_bytes t)%Z t n); auto.
    + apply (told_folder T); assumption.
    + rewrite (told_root_entry T). exact Ne.
    + rewrite (told_entry T) by (destruct fld; discriminate). exact Nm.
    + apply (told_tidy T). exact Os.
    + apply (told_steps T). exact Ts.
    + eapply Forall2_impl_in; [|exact Rows]. intros d row (t' & H). destruct (told_last T _ _ _ H) as (sz & fi & pos & La & _ & Hy). exists (t', sz, fi, pos). auto.
    + eapply Forall_impl; [|exact Al]. intros d H. apply (told_alike T). exact H.
    + destruct steps as [|d steps]; [congruence|]. inversion Rows as [|? row ? rows' (t' & H1) Rr]; subst. cbn [List.hd] in *. inversion Sz as [|? ? S1 _]; subst.
      destruct (told_last T _ _ _ H0) as (sz & fi & pos & La & Es & _). destruct (told_last T _ _ _ H1) as (sz1 & fi1 & pos1 & La1 & Es1 & _).
      pose proof (last_record_unique _ _ _ _ La La1) as Q. injection Q as -> -> -> ->. exists fi1, pos1. rewrite <- S1, <- Es1. exact La.
Qed.

(** ** Two files with a folder of two time steps and metadata, and a file that
    cannot be opened *)
Definition ex_two : list bfile :=
  [(bs "binout0", (PropBin.fmt, [Cd (bs "/nodout/metadata"); Data 6 (bs "ids") [1; 0; 2; 0]; Cd (bs "../d000001"); Data 9 (bs "x") [0; 0; 128; 63]]))%Z;
   (bs "binout1", (PropBin.fmt2, [Other 5 [1; 2; 3]; Cd (bs "/nodout/d000002"); Data 9 (bs "x") [1; 1; 1; 1]; Data 9 (bs "x") [0; 0; 0; 64]]))%Z].
Definition ex_bad : list (cstr * disk) := [(bs "binout2", Unreadable (bs "No such file"))].

Example C95_ex_usable : usable 200 ex_two ex_bad.
Proof.
  split; [discriminate|]. split; [cbn; lia|]. split; [|split; [|split]].
  - constructor; [|constructor; [|constructor]]; (split; [unfold format_ok; cbn; lia|split; [|split; [|vm_compute; reflexivity]]]).
    + PropBin.fmt_ok.
    + PropBin.sup.
    + PropBin.fmt_ok.
    + PropBin.sup.
  - intros q v p Hq Hp (r & E). vm_compute in Hq, Hp.
    repeat (destruct Hq as [Hq|Hq]; [injection Hq as <- _; repeat (destruct Hp as [Hp|Hp]; [rewrite <- Hp in E; vm_compute in E; discriminate E|]); contradiction|]). contradiction.
  - repeat (constructor; [apply Nat.ltb_lt; vm_compute; reflexivity|]). constructor.
  - repeat constructor.
Qed.
Example C95_ex_folder : has_folder ex_two [bs "nodout"].
Proof. right. eexists. split; [left; reflexivity|]. exists [bs "metadata"]. reflexivity. Qed.
Example C95_ex_no_entry : ~ has_entry ex_two ([bs "nodout"] ++ [bs "x"]).
Proof.
  intros [[Q|(v & Iv & (r & E))]|(v & Iv)]; [discriminate Q| |].
  - vm_compute in Iv. repeat (destruct Iv as [<-|Iv]; [vm_compute in E; discriminate E|]). contradiction.
  - vm_compute in Iv. repeat (destruct Iv as [Q|Iv]; [discriminate Q|]). contradiction.
Qed.
Lemma ex_entries d : has_entry ex_two ([bs "nodout"] ++ [d]) -> d = bs "metadata" \/ d = bs "d000001" \/ d = bs "d000002".
Proof.
  intros [[Q|(v & Iv & (r & E))]|(v & Iv)]; [discriminate Q| |].
  - vm_compute in Iv. cbn [app] in E. repeat (destruct Iv as [<-|Iv]; [vm_compute in E; injection E as E _; subst d; auto|]). contradiction.
  - vm_compute in Iv. repeat (destruct Iv as [Q|Iv]; [discriminate Q|]). contradiction.
Qed.
Lemma d_name_digits t : t <> [] -> forallb (fun c => (48 <=? c)%Z && (c <=? 57)%Z) t = true -> d_name (100%Z :: t).
Proof. intros N F. exists t. split; [reflexivity|]. split; [exact N|]. apply Forall_forall. intros c I. rewrite forallb_forall in F. specialize (F c I). lia. Qed.
Example C95_ex_only_steps : only_steps ex_two [bs "nodout"].
Proof. intros t H. apply ex_entries in H as [Q|[Q|Q]]; [discriminate Q| |]; injection Q as ->; apply d_name_digits; try discriminate; reflexivity. Qed.
Example C95_ex_steps : time_steps ex_two [bs "nodout"] [bs "d000001"; bs "d000002"].
Proof.
  split.
  - constructor; [constructor; constructor|constructor; [|constructor]]. right. exists (bs "d00000"), 49%Z, [], 50%Z, []. repeat split; lia.
  - intros d. split.
    + intros [<-|[<-|[]]]; (split; [apply d_name_digits; [discriminate|reflexivity]|left; right]).
      * eexists. split; [right; left; reflexivity|]. exists []. reflexivity.
      * eexists. split; [right; right; left; reflexivity|]. exists []. reflexivity.
    + intros (D & H). apply ex_entries in H as [->|[->| ->]]; [|left; reflexivity|right; left; reflexivity]. exfalso. destruct D as (t & Q & _). discriminate Q.
Qed.
Example C95_ex_values : Forall2 (fun d row => exists t', holds ex_two ([bs "nodout"] ++ d :: [bs "x"]) t' row) [bs "d000001"; bs "d000002"] [[0; 0; 128; 63]; [0; 0; 0; 64]]%Z.
Proof.
  constructor; [|constructor; [|constructor]].
  - exists 9%Z. exists (firstn 1 (all_stored ex_two)), (skipn 2 (all_stored ex_two)). split; [reflexivity|].
    intros w H. vm_compute in H. repeat (destruct H as [H|H]; [discriminate H|]). contradiction.
  - exists 9%Z. exists (firstn 3 (all_stored ex_two)), []. split; [reflexivity|]. intros w [].
Qed.
Example C95_ex_alike : Forall (alike ex_two [bs "nodout"] [bs "x"] (bs "d000001")) [bs "d000001"; bs "d000002"].
Proof.
  assert (E : forall q n, (q = bs "d000001" \/ q = bs "d000002") -> has_entry ex_two [bs "nodout"; q; n] <-> n = bs "x").
  { intros q n Hq. split.
    - intros [[Q|(v & Iv & (r & E))]|(v & Iv)]; [discriminate Q| |].
      + vm_compute in Iv. cbn [app] in E. repeat (destruct Iv as [<-|Iv]; [vm_compute in E; discriminate E|]). contradiction.
      + vm_compute in Iv. repeat (destruct Iv as [Q|Iv]; [injection Q; intros; subst; first [reflexivity|destruct Hq as [Hq|Hq]; discriminate Hq]|]). contradiction.
    - intros ->. right. destruct Hq as [-> | ->]; eexists; [right; left; reflexivity|right; right; left; reflexivity]. }
  constructor; [|constructor; [|constructor]]; intros q n (r & P); cbn [removelast] in P; destruct q; try discriminate P; cbn [app]; rewrite !E by auto; reflexivity.
Qed.
(** The theorem applied to these files. *)
Example C95_ex_timed : exists b, binout_open 200 (bs "binout*") (map on_disk ex_two ++ ex_bad) = OK b /\
  read_timed b (bs "/nodout/x") 0 0 9 = OK {| t_data := Some [0; 0; 128; 63; 0; 0; 0; 64]%Z; t_values := 1; t_steps := 2; t_error := None |}.
Proof.
  destruct (C95_opens 200 (bs "binout*") _ _ C95_ex_usable) as (b & E). exists b. split; [exact E|].
  pose proof (C95_timed_partial 200 (bs "binout*") ex_two ex_bad b C95_ex_usable E (bs "/nodout/x") [bs "nodout"] [bs "x"] [bs "d000001"; bs "d000002"] [[0; 0; 128; 63]; [0; 0; 0; 64]]%Z 4 9 0 0) as H.
  clear E. apply H; clear H.
  - repeat constructor; unfold SEP; lia.
  - eexists. reflexivity.
  - reflexivity.
  - discriminate.
  - discriminate.
  - apply C95_ex_folder.
  - apply C95_ex_no_entry.
  - apply C95_ex_only_steps.
  - apply C95_ex_steps.
  - discriminate.
  - apply C95_ex_values.
  - repeat constructor.
  - apply C95_ex_alike.
  - lia.
  - vm_compute. reflexivity.
  - vm_compute. reflexivity.
Qed.
Example C95_ex_plain : plain_names ex_two.
Proof.
  intros p n v H. vm_compute in H. repeat (destruct H as [H|H]; [injection H as Q _; apply app_inj_tail in Q as [_ <-] || (symmetry in Q; apply (app_inj_tail p [_; _]) in Q as [_ ->])|]); try contradiction.
  all: split; [intros (t & Q' & _); discriminate Q'|discriminate].
Qed.

Print Assumptions C95_variable.
Print Assumptions C95_children.
Print Assumptions C95_count_partial.
Print Assumptions C95_timed_partial.
Print Assumptions C95_python_partial.
Print Assumptions C95_missing.
