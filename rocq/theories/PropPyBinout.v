(** * C84, C85: the Python class Binout *)
From Coq Require Import Sorting.Sorted Sorting.Permutation.
From Verif Require Import CBase CBaseFacts SearchModel SearchSpec SearchProofs PathModel PathSpec PathProofs
  KeyTableModel KeyTableProofs BinDirModel BinDirSpec BinDirProofs BinModel TimedModel TimedSpec TimedProofs PyBinoutModel PyBinoutSpec PyBinoutProofs.
From Verif Require BinSpec BinProofs PropBinDir PropTimed.

Lemma F2_len {A B} (R : A -> B -> Prop) l m : Forall2 R l m -> length l = length m.
Proof. induction 1; cbn; congruence. Qed.

(** ** C84: reading variables *)

(** Every path is looked up as C32 says; what is not found is an exception
    with a message that names it. *)
Theorem C84_lookup : forall ops, history_ok ops -> specials_are_folders ops -> exists dir cur, run [] None ops = OK (dir, cur) /\
  forall b s, b_dir b = dir -> ascii_str s -> s <> [] -> exists o, simple_path_meets ops (elements s) o /\
    match o with
    | None => py_variable_exists b s = OK false /\ py_read b s = OK (Raises (bs "The simple path """ ++ s ++ bs """ can not be found")) /\
        py_type_id b s = OK (Raises (bs "The simple path """ ++ s ++ bs """ can not be found"))
    | Some (_, t, _) => py_variable_exists b s = OK true /\ py_type_id b s = OK (Returns t)
    end.
Proof.
  intros ops H Sp. destruct (history_run ops H) as (dir & cur & E & D). exists dir, cur. split; [exact E|].
  intros b s <- As Ne. destruct (simple_path_spec ops b s H D Sp As Ne) as (o & A & M & _). exists o. split; [exact M|].
  unfold py_variable_exists, py_read, py_type_id, cpp_simple_path. rewrite A. destruct o as [[[r t] tm]|]; cbn [option_map bind]; auto.
Qed.

Lemma read_at ops b cur s p t size fi pos bytes : history_ok ops -> run [] None ops = OK (b_dir b, cur) -> Forall ascii_str p -> Forall proper p ->
  simple_path_to_real b s = OK (Some (path_text p, t, false)) -> last_record (records [] ops) p (Some (t, size, fi, pos)) ->
  has_bytes (b_files b) (t, size, fi, pos) bytes -> (1 <= t <= 10)%Z -> (0 < size)%Z -> py_read b s = OK (Returns (PArray t (size / BinSpec.element_bytes t) bytes)).
Proof.
  intros H E Ap Pp X L Hb Ht Hs. destruct (PropBinDir.C23_lookup_partial ops H) as (dir' & cur' & E' & G). rewrite E in E'. injection E' as <- <-. set (r := path_text p) in *.
  assert (Er : elements r = p) by (apply path_text_elements; exact Pp).
  destruct (G r (path_text_ascii _ Ap) (path_text_absolute _)) as (o & Lo & Gf). rewrite Er in Lo. rewrite <- (last_record_unique _ _ _ _ L Lo) in Gf. unfold get_file in Gf.
  destruct Hb as (data & Q1 & Q2 & Q3 & Q4 & ->).
  unfold py_read, cpp_simple_path. rewrite X. cbn [bind]. unfold known_type. rewrite (proj2 (Z.leb_le 1 t)), (proj2 (Z.leb_le t 10)) by lia. cbn [andb].
  unfold cpp_read, binout_read. destruct (path_view_new r) as [pv| |]; cbn [bind] in Gf |- *; try discriminate. rewrite Gf. cbn [bind]. rewrite Z.eqb_refl. cbn [negb]. rewrite (proj2 (Z.eqb_neq size 0)) by lia.
  unfold aget. rewrite Q1. cbn [bind]. unfold fseek_to. rewrite (proj2 (Z.leb_le _ _)), (proj2 (Z.ltb_lt _ _)) by lia. cbn [andb].
  unfold fread. rewrite (proj2 (Z.ltb_lt 0 size)), (proj2 (Z.leb_le _ _)) by lia. cbn. rewrite BinProofs.type_size_spec by lia. replace (Z.to_nat (size * 1)) with (Z.to_nat size) by lia. reflexivity.
Qed.
Lemma record_nonempty ops s i : last_record (records [] ops) (elements s) (Some i) -> s <> [].
Proof. intros L ->. destruct (records_name _ _ _ _ (last_record_in _ _ _ L)) as (c & n & Q & _). cbn in Q. destruct c; discriminate. Qed.

(** A variable is returned as an array of its type with the recorded bytes. *)
Theorem C84_variable : forall ops, history_ok ops -> specials_are_folders ops -> exists dir cur, run [] None ops = OK (dir, cur) /\
  forall b s t size fi pos bytes, b_dir b = dir -> ascii_str s -> last_record (records [] ops) (elements s) (Some (t, size, fi, pos)) ->
    has_bytes (b_files b) (t, size, fi, pos) bytes -> (1 <= t <= 10)%Z -> (0 < size)%Z ->
    py_read b s = OK (Returns (PArray t (size / BinSpec.element_bytes t) bytes)).
Proof.
  intros ops H Sp. destruct (PropTimed.C32_existing_partial ops H Sp) as (dir & cur & E & X).
  exists dir, cur. split; [exact E|]. intros b s t size fi pos bytes Ed As L Hb Ht Hs.
  apply (read_at ops b cur s (elements s) t size fi pos bytes); auto.
  - rewrite Ed. exact E.
  - apply elements_ascii. exact As.
  - apply elements_proper.
  - eapply X; eauto. eapply record_nonempty. exact L.
Qed.

(** A variable without bytes, one whose file cannot be accessed and one whose
    file ends too early raise an exception. *)
Definition no_bytes (files : list (option disk)) (size fi pos : Z) : Prop :=
  size = 0%Z \/
  (exists why, nth_error files (Z.to_nat fi) = Some (Some (Unreadable why)) /\ length why <= 500 /\ size <> 0%Z) \/
  (exists data, nth_error files (Z.to_nat fi) = Some (Some (Content data)) /\ (0 < size)%Z /\ (0 <= pos < 2 ^ 63)%Z /\ (Z.of_nat (length data) < pos + size)%Z).
Theorem C84_no_bytes : forall ops, history_ok ops -> specials_are_folders ops -> exists dir cur, run [] None ops = OK (dir, cur) /\
  forall b s t size fi pos, b_dir b = dir -> ascii_str s -> last_record (records [] ops) (elements s) (Some (t, size, fi, pos)) ->
    no_bytes (b_files b) size fi pos -> (1 <= t <= 10)%Z -> length (path_text (elements s)) <= 400 ->
    exists message, py_read b s = OK (Raises message).
Proof.
  intros ops H Sp. destruct (PropTimed.C32_existing_partial ops H Sp) as (dir & cur & E & X).
  exists dir, cur. split; [exact E|]. intros b s t size fi pos Ed As L Hb Ht Hl.
  assert (X' : simple_path_to_real b s = OK (Some (path_text (elements s), t, false))) by (eapply X; eauto; eapply record_nonempty; exact L).
  destruct (PropBinDir.C23_lookup_partial ops H) as (dir' & cur' & E' & G). rewrite E in E'. injection E' as <- <-. set (r := path_text (elements s)) in *.
  assert (Er : elements r = elements s) by (apply path_text_elements, elements_proper).
  destruct (G r (path_text_ascii _ (elements_ascii _ As)) (path_text_absolute _)) as (o & Lo & Gf). rewrite Er in Lo. rewrite <- (last_record_unique _ _ _ _ L Lo) in Gf. unfold get_file in Gf.
  unfold py_read, cpp_simple_path. rewrite X'. cbn [bind]. unfold known_type. rewrite (proj2 (Z.leb_le 1 t)), (proj2 (Z.leb_le t 10)) by lia. cbn [andb].
  unfold cpp_read, binout_read. rewrite Ed. destruct (path_view_new r) as [pv| |]; cbn [bind] in Gf |- *; try discriminate. rewrite Gf. cbn [bind]. rewrite Z.eqb_refl. cbn [negb].
  assert (Fl : forall m, length m < 1024 -> exists message, (do r0 <- read_fails 0 m; OK match r_error r0, r_data r0 with
       | Some e, _ => Raises e | None, Some bytes => Returns (PArray t (r_size r0) bytes) | None, None => Returns (PArray t (r_size r0) []) end) = OK (Raises message)).
  { intros m Hm. unfold read_fails, error_string. rewrite (proj2 (Nat.ltb_lt _ _) Hm). cbn. eauto. }
  destruct Hb as [-> |[(why & Ef & Hw & Hs)|(data & Ef & Hs & Hp & Hd)]].
  - cbn [Z.eqb]. apply Fl. rewrite !app_length. cbn [length bs]. lia.
  - rewrite (proj2 (Z.eqb_neq size 0)) by exact Hs. unfold aget. rewrite Ef. cbn [bind]. apply Fl. rewrite !app_length. cbn [length bs]. lia.
  - rewrite (proj2 (Z.eqb_neq size 0)) by lia. unfold aget. rewrite Ef. cbn [bind]. unfold fseek_to. rewrite (proj2 (Z.leb_le _ _)), (proj2 (Z.ltb_lt _ _)) by lia. cbn [andb].
    unfold fread. rewrite (proj2 (Z.leb_gt _ _)) by lia. rewrite andb_false_r. apply Fl. rewrite !app_length. cbn [length bs]. lia.
Qed.
Print Assumptions C84_no_bytes.

(** A variable of the metadata is found without naming the metadata. *)
Theorem C84_metadata : forall ops, history_ok ops -> specials_are_folders ops -> exists dir cur, run [] None ops = OK (dir, cur) /\
  forall b s fld e rest t size fi pos bytes, b_dir b = dir -> ascii_str s -> elements s = fld ++ e :: rest -> fld <> [] -> ~ exists_path ops (fld ++ [e]) ->
    last_record (records [] ops) (fld ++ bs "metadata" :: e :: rest) (Some (t, size, fi, pos)) ->
    has_bytes (b_files b) (t, size, fi, pos) bytes -> (1 <= t <= 10)%Z -> (0 < size)%Z ->
    py_read b s = OK (Returns (PArray t (size / BinSpec.element_bytes t) bytes)).
Proof.
  intros ops H Sp. destruct (history_run ops H) as (dir & cur & E & D). exists dir, cur. split; [exact E|].
  intros b s fld e rest t size fi pos bytes <- As Es Nf Nh L Hb Ht Hs.
  assert (Ne : s <> []). { intros ->. cbn in Es. destruct fld; [congruence|discriminate]. }
  pose proof (last_record_in _ _ _ L) as Ir. pose proof (record_above ops _ _ Ir) as Ab.
  assert (Ff : is_folder_path ops fld). { apply Ab; [exact Nf|eexists; reflexivity|]. intros Q. apply (f_equal (@length _)) in Q. rewrite app_length in Q. cbn in Q. lia. }
  assert (Pf : Forall proper (fld ++ e :: rest)) by (rewrite <- Es; apply elements_proper). assert (Af : Forall ascii_str (fld ++ e :: rest)) by (rewrite <- Es; apply elements_ascii; exact As).
  apply Forall_app in Pf as (Pf & Pe). apply Forall_app in Af as (Af & Ae).
  assert (Pm : proper (bs "metadata") /\ ascii_str (bs "metadata")). { split; [split; [discriminate|vm_compute; intuition discriminate]|repeat (constructor; [vm_compute; split; reflexivity|]); constructor]. }
  destruct (simple_path_spec ops b s H D Sp As Ne) as (o & A & M & _). rewrite Es in M. apply meets_start in M; [|assumption|assumption]. cbn [simple_meets] in M. destruct M as (_ & M & _).
  assert (Qo : o = Some (fld ++ bs "metadata" :: e :: rest, t, false)).
  { destruct rest as [|x rest].
    - assert (Ex : exists_path ops (fld ++ [bs "metadata"; e])) by (right; eexists; exact Ir). destruct (M Nh Ex) as (_ & M2). exact (M2 _ _ _ _ L).
    - assert (Fe : is_folder_path ops (fld ++ [bs "metadata"; e])).
      { apply Ab; [destruct fld; discriminate|exists (x :: rest); rewrite <- app_assoc; reflexivity|]. intros Q. apply app_inv_head in Q. discriminate. }
      destruct (M Nh (or_introl Fe)) as (M1 & _). specialize (M1 Fe). rewrite (meets_var ops o (x :: rest) _ _ _ t size fi pos) with (4 := M1); [rewrite <- app_assoc; reflexivity|discriminate| |rewrite <- app_assoc; exact L].
      intros a Na (c & Ec) Nq. rewrite <- app_assoc. apply Ab; [destruct fld; discriminate|exists c; rewrite <- app_assoc; cbn [app]; rewrite Ec; reflexivity|].
      intros Q. apply app_inv_head in Q. injection Q as Q. congruence. }
  subst o. cbn [option_map] in A.
  apply (read_at ops b cur s (fld ++ bs "metadata" :: e :: rest) t size fi pos bytes); auto.
  - apply Forall_app. split; [exact Af|constructor; [apply Pm|exact Ae]].
  - apply Forall_app. split; [exact Pf|constructor; [apply Pm|exact Pe]].
Qed.

(** A variable of the time steps is returned as one array for each step, in
    order. *)
Theorem C84_timed : forall ops, history_ok ops -> specials_are_folders ops -> exists dir cur, run [] None ops = OK (dir, cur) /\
  forall b s fld rel steps rows size t n, b_dir b = dir -> ascii_str s -> elements s = fld ++ rel -> fld <> [] -> rel <> [] ->
    is_folder_path ops fld -> ~ exists_path ops (fld ++ [List.hd [] rel]) -> ~ exists_path ops (fld ++ [bs "metadata"; List.hd [] rel]) ->
    tidy ops fld -> steps_of ops fld steps -> steps <> [] ->
    Forall2 (step_value ops (b_files b) fld rel) steps rows -> Forall (fun row => Z.of_nat (length row) = size) rows ->
    Forall (same_entries ops fld rel (List.hd [] steps)) steps ->
    (exists fi pos, last_record (records [] ops) (fld ++ List.hd [] steps :: rel) (Some (t, size, fi, pos))) -> (1 <= t <= 10)%Z ->
    size = (n * BinSpec.element_bytes t)%Z -> (0 < n)%Z -> (size * Z.of_nat (length steps) < 2 ^ 64)%Z ->
    py_read b s = OK (Returns (PRows t n rows)).
Proof.
  intros ops H Sp. destruct (history_run ops H) as (dir & cur & E & D). exists dir, cur. split; [exact E|].
  intros b s fld rel steps rows size t n <- As Es Nf Nr Ff Nh Nm T St Ns F Ls Sm (fi & pos & L) Ht Hz Hn Ho.
  assert (Ne : s <> []). { intros ->. cbn in Es. destruct fld; [congruence|discriminate]. }
  destruct (simple_path_spec ops b s H D Sp As Ne) as (o & A & M & _). rewrite Es in M. pose proof (resolve_timed _ _ _ _ _ _ _ _ _ Ff Nf Nr Nh Nm St Ns L M) as ->. cbn [option_map] in A.
  assert (Eb : (0 < BinSpec.element_bytes t)%Z). { rewrite <- BinProofs.type_size_spec by lia. unfold type_size. repeat match goal with |- context [if ?c then _ else _] => destruct c end; lia. }
  assert (Dv : (size / BinSpec.element_bytes t = n)%Z) by (rewrite Hz; apply Z.div_mul; lia).
  unfold py_read, cpp_simple_path. rewrite A. cbn [bind]. unfold known_type. rewrite (proj2 (Z.leb_le 1 t)), (proj2 (Z.leb_le t 10)) by lia. cbn [andb]. unfold cpp_read_timed.
  assert (Er : elements (path_text (fld ++ rel)) = fld ++ rel) by (rewrite <- Es; apply path_text_elements, elements_proper).
  assert (Ar : ascii_str (path_text (fld ++ rel))) by (rewrite <- Es; apply path_text_ascii, elements_ascii; exact As).
  rewrite (read_timed_regular ops b (path_text (fld ++ rel)) fld rel steps rows size t 0 0 D (proj2 (proj2 (proj2 H))) Ar (path_text_absolute _) Er Nf Nr Ff Nh T St Ns F Ls Sm).
  - cbn [bind t_error t_data t_values t_steps]. rewrite BinProofs.type_size_spec by lia. rewrite Dv, <- Hz. rewrite Nat2Z.id, (F2_len _ _ _ F). rewrite rows_of_concat; [reflexivity|].
    eapply Forall_impl; [|exact Ls]. cbn. intros a La. lia.
  - rewrite BinProofs.type_size_spec by lia. rewrite Dv. exact Hn.
  - exact Ho.
Qed.

(** The number of time steps of a folder. *)
Theorem C84_num_timesteps : forall ops, history_ok ops -> specials_are_folders ops -> exists dir cur, run [] None ops = OK (dir, cur) /\
  forall b s, b_dir b = dir -> ascii_str s -> s <> [] -> folder ops (elements s) -> tidy ops (elements s) ->
    (forall n i, ~ In (elements s ++ [n], i) (records [] ops)) ->
    exists steps, steps_of ops (elements s) steps /\ py_num_timesteps b s = OK (Returns (length steps)).
Proof.
  intros ops H Sp. destruct (history_run ops H) as (dir & cur & E & D). exists dir, cur. split; [exact E|].
  intros b s <- As Ne F T Nv. destruct (simple_path_spec ops b s H D Sp As Ne) as (o & A & M & _). pose proof (resolve_folder _ _ _ F M) as ->. cbn [option_map] in A.
  unfold py_num_timesteps, cpp_simple_path. rewrite A. cbn [bind]. set (r := path_text (elements s)).
  assert (Er : elements r = elements s) by (apply path_text_elements, elements_proper).
  destruct (num_timesteps_spec ops b r D (proj2 (proj2 (proj2 H))) (path_text_ascii _ (elements_ascii _ As)) (path_text_absolute _)) as (x & Q & Sx); rewrite ?Er in *; auto.
  exists x. split; [exact Q|]. unfold cpp_num_timesteps. rewrite Sx. reflexivity.
Qed.

(** A folder below the time steps can not be read; the message is written
    into 1024 bytes. *)
Theorem C84_timed_folder : forall ops, history_ok ops -> specials_are_folders ops -> exists dir cur, run [] None ops = OK (dir, cur) /\
  forall b s fld d e rest, b_dir b = dir -> ascii_str s -> elements s = fld ++ e :: rest -> fld <> [] -> is_folder_path ops fld ->
    ~ exists_path ops (fld ++ [e]) -> ~ exists_path ops (fld ++ [bs "metadata"; e]) -> first_step ops fld d -> is_folder_path ops (fld ++ d :: e :: rest) ->
    py_read b s = if length s <? 976 then OK (Raises (bs "Unable to read """ ++ s ++ bs """ because it has an invalid type")) else UB.
Proof.
  intros ops H Sp. destruct (history_run ops H) as (dir & cur & E & D). exists dir, cur. split; [exact E|].
  intros b s fld d e rest <- As Es Nf Ff Nh Nm Fs Fd.
  assert (Ne : s <> []). { intros ->. cbn in Es. destruct fld; [congruence|discriminate]. }
  destruct (simple_path_spec ops b s H D Sp As Ne) as (o & A & M & _). rewrite Es in M. apply meets_start in M; [|assumption|assumption].
  cbn [simple_meets] in M. destruct M as (_ & _ & M & _). assert (Fe : is_folder_path ops (fld ++ [d; e])) by (apply (folder_prefix ops _ rest); rewrite <- app_assoc; exact Fd).
  destruct (M Nh Nm d Fs (or_introl Fe)) as (M1 & _). specialize (M1 Fe). rewrite <- (app_nil_r rest) in M1. apply meets_folder in M1; [|rewrite <- app_assoc; exact Fd]. cbn [simple_meets] in M1. subst o.
  unfold py_read, cpp_simple_path. rewrite A. cbn [option_map bind known_type Z.leb Z.compare Pos.compare Pos.compare_cont andb]. unfold error_string.
  match goal with |- context [length ?m <? 1024] => assert (Lm : length m = 48 + length s) by (rewrite !app_length; cbn [length bs]; lia); rewrite Lm end.
  destruct (Nat.ltb_spec (48 + length s) 1024), (Nat.ltb_spec (length s) 976); try lia; reflexivity.
Qed.

(** ** C85: reading folders *)
Lemma children_names ops b cur p r : history_ok ops -> run [] None ops = OK (b_dir b, cur) -> folder ops p -> ascii_str r -> absolute r -> elements r = p ->
  exists l, names_of ops p l /\ cpp_get_children b r = OK (Returns l).
Proof.
  intros H E F As Ab Er. destruct (PropBinDir.C24_listing_partial ops H) as (dir & cur' & E' & X). rewrite E in E'. injection E' as <- <-.
  destruct (X r As Ab) as (X1 & _). rewrite Er in X1. destruct (X1 F) as (cs & Q & St & In0). exists (map ename cs). split; [split; [exact St|intros n; apply In0]|].
  unfold cpp_get_children, binout_get_children. unfold get_children in Q. destruct (path_view_new r) as [pv| |]; cbn [bind] in *; try discriminate. rewrite Q. reflexivity.
Qed.

(** C++ get_children of a path that is no folder throws (but not below an
    empty folder). *)
Theorem C85_no_folder : forall ops, history_ok ops -> exists dir cur, run [] None ops = OK (dir, cur) /\
  forall b path, b_dir b = dir -> ascii_str path -> absolute path -> ~ folder ops (elements path) ->
    (~ below_empty ops (elements path) -> cpp_get_children b path = OK (Raises (bs "The path """ ++ path ++ bs """ does not exist"))) /\
    (below_empty ops (elements path) -> cpp_get_children b path = OK (Returns [])).
Proof.
  intros ops H. destruct (PropBinDir.C24_listing_partial ops H) as (dir & cur & E & X). exists dir, cur. split; [exact E|].
  intros b path <- As Ab F. destruct (X path As Ab) as (_ & X2). destruct (X2 F) as (X3 & X4).
  unfold cpp_get_children, binout_get_children, get_children in *. destruct (path_view_new path) as [pv| |]; cbn [bind] in *;
    (split; intros B; [specialize (X4 B); rename X4 into Q|specialize (X3 B); rename X3 into Q]); try discriminate Q; rewrite Q; reflexivity.
Qed.
Print Assumptions C85_no_folder.
Lemma names_unique ops p l m : names_of ops p l -> names_of ops p m -> l = m.
Proof.
  intros (S1 & I1) (S2 & I2). assert (X : forall n, In n l <-> In n m) by (intros n; rewrite I1, I2; reflexivity). clear I1 I2. revert m S2 X. induction S1 as [|a l S1 IH F]; intros m S2 X.
  - destruct m as [|b m]; [reflexivity|]. exfalso. apply (proj2 (X b)). left. reflexivity.
  - destruct S2 as [|b m S2 G]; [exfalso; apply (proj1 (X a)); left; reflexivity|]. rewrite Forall_forall in F, G.
    assert (a = b) as <-. { destruct (proj1 (X a) (or_introl eq_refl)) as [Q|Q]; [auto|]. destruct (proj2 (X b) (or_introl eq_refl)) as [R|R]; [auto|]. exfalso. apply (bytes_lt_irrefl a). eapply bytes_lt_trans; [apply F; exact R|apply G; exact Q]. }
    f_equal. apply IH; [exact S2|]. intros n. split; intros In0.
    + destruct (proj1 (X n) (or_intror In0)) as [<- |Q]; [|exact Q]. exfalso. apply (bytes_lt_irrefl a). apply F. exact In0.
    + destruct (proj2 (X n) (or_intror In0)) as [<- |Q]; [|exact Q]. exfalso. apply (bytes_lt_irrefl a). apply G. exact In0.
Qed.
Lemma read_folder_start ops b cur s : history_ok ops -> specials_are_folders ops -> run [] None ops = OK (b_dir b, cur) -> ascii_str s -> s <> [] -> folder ops (elements s) ->
  py_read b s = py_read_folder b (path_text (elements s)).
Proof.
  intros H Sp E As Ne F. destruct (history_run ops H) as (dir & cur' & E' & D). rewrite E in E'. injection E' as <- <-. destruct (simple_path_spec ops b s H D Sp As Ne) as (o & A & M & _). pose proof (resolve_folder _ _ _ F M) as ->. cbn [option_map] in A.
  unfold py_read, cpp_simple_path. rewrite A. reflexivity.
Qed.

(** The time steps of a folder are listed as one: [merged] is the case of a
    folder whose first entry is d000001 and whose last one is metadata. *)
Definition merged (l : list (list Z)) : Prop := List.hd [] l = bs "d000001" /\ last l [] = bs "metadata".

(** Any other folder (or the root) is returned as the names of its entries. *)
Theorem C85_folder_partial : forall ops, history_ok ops -> specials_are_folders ops -> exists dir cur, run [] None ops = OK (dir, cur) /\
  forall b s l, b_dir b = dir -> ascii_str s -> s <> [] -> folder ops (elements s) -> names_of ops (elements s) l -> l <> [] -> ~ merged l ->
    py_read b s = OK (Returns (PNames l)).
Proof.
  intros ops H Sp. destruct (history_run ops H) as (dir & cur & E & D). exists dir, cur. split; [exact E|].
  intros b s l <- As Ne F Nl N0 Nm. rewrite (read_folder_start ops b cur s H Sp E As Ne F). unfold py_read_folder. set (r := path_text (elements s)).
  destruct (children_names ops b cur (elements s) r H E F (path_text_ascii _ (elements_ascii _ As)) (path_text_absolute _) (path_text_elements _ (elements_proper _))) as (l' & Nl' & Q).
  rewrite (names_unique _ _ _ _ Nl' Nl) in Q. rewrite Q. cbn [bind]. destruct l as [|x l]; [congruence|]. 
  assert (Az : aget (x :: l) (length (x :: l) - 1) = OK (last (x :: l) [])).
  { apply aget_OK. destruct (exists_last (l := x :: l)) as (a & z & ->); [discriminate|]. rewrite app_length, last_last. cbn [length]. replace (length a + 1 - 1) with (length a) by lia. rewrite nth_error_app2, Nat.sub_diag by lia. reflexivity. }
  rewrite Az. cbn [bind]. change (aget (x :: l) 0) with (OK x). cbn [bind].
  destruct (Z.eqb_spec (strcmp (last (x :: l) []) (bs "metadata")) 0) as [Q1|Q1]; [|reflexivity]. destruct (Z.eqb_spec (strcmp x (bs "d000001")) 0) as [Q2|Q2]; [|reflexivity].
  exfalso. apply Nm. apply strcmp_eq in Q1, Q2. split; [exact Q2|exact Q1].
Qed.

(** A folder of time steps is returned as the names of its metadata and of the
    variables of its first step, in order. *)
Theorem C85_steps_partial : forall ops, history_ok ops -> specials_are_folders ops -> exists dir cur, run [] None ops = OK (dir, cur) /\
  forall b s l, b_dir b = dir -> ascii_str s -> s <> [] -> folder ops (elements s) -> names_of ops (elements s) l -> l <> [] -> merged l ->
    exists m d names, names_of ops (elements s ++ [bs "metadata"]) m /\ names_of ops (elements s ++ [bs "d000001"]) d /\
      py_read b s = OK (Returns (PNames names)) /\ Permutation names (m ++ d) /\ ascending names.
Proof.
  intros ops H Sp. destruct (history_run ops H) as (dir & cur & E & D). exists dir, cur. split; [exact E|].
  intros b s l <- As Ne F Nl N0 (Mh & Ml). rewrite (read_folder_start ops b cur s H Sp E As Ne F). unfold py_read_folder. set (r := path_text (elements s)).
  assert (Ar : ascii_str r) by apply (path_text_ascii _ (elements_ascii _ As)).
  assert (Er : forall x, proper x -> ascii_str x -> absolute (r ++ SEP :: x) /\ ascii_str (r ++ SEP :: x) /\ elements (r ++ SEP :: x) = elements s ++ [x]).
  { intros x Px Ax. split; [destruct (path_text_absolute (elements s)) as (y & Q); exists (y ++ SEP :: x); unfold r; rewrite Q; reflexivity|]. split; [apply Forall_app; split; [exact Ar|constructor; [unfold SEP; lia|exact Ax]]|].
    unfold r. destruct (elements s) as [|e els] eqn:Ee.
    - cbn [app path_text]. change (SEP :: SEP :: x) with ([SEP] ++ SEP :: x). pose proof (path_text_elements [x] (Forall_cons x Px (Forall_nil _))) as Q. cbn [path_text map concat] in Q. rewrite app_nil_r in Q. unfold elements in Q |- *. cbn [app split_sep]. change (SEP =? 47)%Z with true. cbn [split_sep] in *. change (SEP =? 47)%Z with true in Q. cbn iota in *. cbn [filter] in *. exact Q.
    - rewrite path_text_snoc by discriminate. rewrite <- Ee. apply path_text_elements. apply Forall_app. split; [apply elements_proper|constructor; [exact Px|constructor]]. }
  destruct (children_names ops b cur (elements s) r H E F Ar (path_text_absolute _) (path_text_elements _ (elements_proper _))) as (l' & Nl' & Q).
  rewrite (names_unique _ _ _ _ Nl' Nl) in Q. rewrite Q. cbn [bind]. destruct l as [|x l]; [congruence|].
  assert (Az : aget (x :: l) (length (x :: l) - 1) = OK (last (x :: l) [])).
  { apply aget_OK. destruct (exists_last (l := x :: l)) as (a & z & ->); [discriminate|]. rewrite app_length, last_last. cbn [length]. replace (length a + 1 - 1) with (length a) by lia. rewrite nth_error_app2, Nat.sub_diag by lia. reflexivity. }
  rewrite Az. cbn [bind]. change (aget (x :: l) 0) with (OK x). cbn [bind]. cbn [List.hd] in Mh. rewrite Ml, Mh, !strcmp_refl. cbn [Z.eqb andb].
  assert (Fo : forall n, In n (x :: l) -> d_name n \/ n = bs "metadata" -> folder ops (elements s ++ [n])).
  { intros n In0 Sn. right. apply (proj2 Nl) in In0. destruct In0 as [G|(i & I)]; [exact G|]. exfalso. destruct (records_name _ _ _ _ I) as (c & n' & Qn & I1 & _). apply app_inj_tail in Qn as (_ & <-). destruct (Sp _ _ I1) as (S1 & S2). destruct Sn as [Sn|Sn]; auto. }
  assert (Dn : d_name (bs "d000001")). { exists (bs "000001"). split; [reflexivity|]. split; [discriminate|]. repeat (constructor; [vm_compute; split; discriminate|]). constructor. }
  assert (Pm : proper (bs "metadata") /\ ascii_str (bs "metadata")). { split; [split; [discriminate|vm_compute; intuition discriminate]|repeat (constructor; [vm_compute; split; reflexivity|]); constructor]. }
  assert (Pd : proper (bs "d000001") /\ ascii_str (bs "d000001")). { split; [split; [discriminate|vm_compute; intuition discriminate]|repeat (constructor; [vm_compute; split; reflexivity|]); constructor]. }
  assert (Im : In (bs "metadata") (x :: l)). { rewrite <- Ml. destruct (exists_last (l := x :: l)) as (a & z & ->); [discriminate|]. rewrite last_last. apply in_or_app. right. left. reflexivity. }
  destruct (Er _ (proj1 Pm) (proj2 Pm)) as (A1 & A2 & A3). destruct (Er _ (proj1 Pd) (proj2 Pd)) as (B1 & B2 & B3).
  destruct (children_names ops b cur _ _ H E (Fo _ Im (or_intror eq_refl)) A2 A1 A3) as (m & Nm & Qm).
  destruct (children_names ops b cur _ _ H E (Fo (bs "d000001") (or_introl Mh) (or_introl Dn)) B2 B1 B3) as (d & Nd & Qd).
  change (bs "/metadata") with (SEP :: bs "metadata"). change (bs "/d000001") with (SEP :: bs "d000001"). rewrite Qm. cbn [bind]. rewrite Qd. cbn [bind].
  exists m, d, (sort_names (m ++ d)). split; [exact Nm|]. split; [exact Nd|]. split; [reflexivity|]. split; [apply sort_perm|apply sort_asc].
Qed.

(** What is missing: a folder without entries. *)
Theorem C85_empty_refuted : forall ops, history_ok ops -> specials_are_folders ops -> exists dir cur, run [] None ops = OK (dir, cur) /\
  forall b s, b_dir b = dir -> ascii_str s -> s <> [] -> folder ops (elements s) -> (forall n, ~ exists_path ops (elements s ++ [n])) -> py_read b s = UB.
Proof.
  intros ops H Sp. destruct (history_run ops H) as (dir & cur & E & D). exists dir, cur. split; [exact E|].
  intros b s <- As Ne F N0. rewrite (read_folder_start ops b cur s H Sp E As Ne F). unfold py_read_folder. set (r := path_text (elements s)).
  destruct (children_names ops b cur (elements s) r H E F (path_text_ascii _ (elements_ascii _ As)) (path_text_absolute _) (path_text_elements _ (elements_proper _))) as (l & (_ & Nl) & Q).
  rewrite Q. cbn [bind]. destruct l as [|x l]; [reflexivity|]. exfalso. apply (N0 x). apply Nl. left. reflexivity.
Qed.

(** ** A small file *)
Import PropTimed.
Definition C84_ops : list op :=
  [OpFolder (bs "/nodout/metadata"); OpFile (bs "ids") (6, 2, 0, 0)%Z; OpFolder (bs "/nodout/d000001"); OpFile (bs "x") (5, 2, 0, 3)%Z;
   OpFolder (bs "/nodout/d000002"); OpFile (bs "x") (5, 2, 0, 8)%Z; OpFolder (bs "/empty")].
Example C84_history : history_ok C84_ops /\ specials_are_folders C84_ops.
Proof.
  split; [history|]. intros n i H; cbn in H; repeat (destruct H as [H|H]; [try discriminate H; injection H as <- _|]); try contradiction.
  all: split; [intros (t & Q & _); discriminate Q|discriminate].
Qed.
Ltac noex := intros [(p & P & (r & E))|(i & H)]; [vm_compute in P; repeat (destruct P as [<- |P]; [vm_compute in E; try discriminate E|]); try contradiction|vm_compute in H; repeat (destruct H as [H|H]; [discriminate H|]); contradiction].
Example C84_timed_hypotheses : ~ exists_path C84_ops [bs "nodout"; bs "x"] /\ ~ exists_path C84_ops [bs "nodout"; bs "metadata"; bs "x"] /\ tidy C84_ops [bs "nodout"] /\
  steps_of C84_ops [bs "nodout"] [bs "d000001"; bs "d000002"] /\ Forall2 (step_value C84_ops bytes16 [bs "nodout"] [bs "x"]) [bs "d000001"; bs "d000002"] [[4; 5]; [9; 10]]%Z /\
  Forall (same_entries C84_ops [bs "nodout"] [bs "x"] (bs "d000001")) [bs "d000001"; bs "d000002"].
Proof.
  assert (T : forall t, exists_path C84_ops ([bs "nodout"] ++ [100%Z :: t]) -> t = bs "000001" \/ t = bs "000002").
  { intros t [(p & P & (r & E))|(i & H)].
    - vm_compute in P. destruct P as [<- |[<- |[<- |[<- |[]]]]]; vm_compute in E; try discriminate E; injection E as <- <-; auto.
    - vm_compute in H. repeat (destruct H as [H|H]; [discriminate H|]). contradiction. }
  assert (Dn : forall t, t = bs "000001" \/ t = bs "000002" -> d_name (100%Z :: t)).
  { intros t [-> | ->]; (eexists; split; [reflexivity|split; [discriminate|repeat (constructor; [split; discriminate|]); constructor]]). }
  split; [noex|]. split; [noex|]. split; [intros t Q; apply Dn, T; exact Q|]. split; [|split].
  - split; [constructor; [constructor; constructor|constructor; [|constructor]]; right; exists (bs "d00000"), 49%Z, [], 50%Z, []; repeat split; lia|].
    intros d. split.
    + intros [<- |[<- |[]]].
      * split; [apply Dn; left; reflexivity|left]. exists [bs "nodout"; bs "d000001"]. split; [right; left; reflexivity|exists []; reflexivity].
      * split; [apply Dn; right; reflexivity|left]. exists [bs "nodout"; bs "d000002"]. split; [right; right; left; reflexivity|exists []; reflexivity].
    + intros ((t & -> & _) & Q). apply T in Q. destruct Q as [-> | ->]; cbn; auto.
  - constructor; [|constructor; [|constructor]].
    + exists (5, 2, 0, 3)%Z. split; [exists (firstn 1 (records [] C84_ops)), (skipn 2 (records [] C84_ops)); split; [reflexivity|]|].
      * intros j H. vm_compute in H. repeat (destruct H as [H|H]; [discriminate H|]). contradiction.
      * eexists. split; [reflexivity|]. split; [lia|]. split; [cbn; lia|]. split; [lia|reflexivity].
    + exists (5, 2, 0, 8)%Z. split; [exists (firstn 2 (records [] C84_ops)), (skipn 3 (records [] C84_ops)); split; [reflexivity|]|].
      * intros j H. vm_compute in H. repeat (destruct H as [H|H]; [discriminate H|]). contradiction.
      * eexists. split; [reflexivity|]. split; [lia|]. split; [cbn; lia|]. split; [lia|reflexivity].
  - assert (X : forall d n, d = bs "d000001" \/ d = bs "d000002" -> (exists_path C84_ops ([bs "nodout"] ++ d :: [] ++ [n]) <-> n = bs "x")).
    { intros d n [-> | ->]; (split; [intros [(p & P & (r & E))|(i & H)]|intros ->; right]).
      3: { exists (5, 2, 0, 3)%Z. right. left. reflexivity. } 5: { exists (5, 2, 0, 8)%Z. right. right. left. reflexivity. }
      all: try (vm_compute in P; destruct P as [<- |[<- |[<- |[<- |[]]]]]; vm_compute in E; discriminate E).
      all: vm_compute in H; repeat (destruct H as [H|H]; [try discriminate H; injection H as <- _; reflexivity|]); contradiction. }
    repeat (apply Forall_cons; [intros q n (r & Q)|]); [| |constructor]; cbn in Q; destruct q; try discriminate; rewrite !X; auto; reflexivity.
Qed.
Example C84_case : let b := mk (run_dir C84_ops) bytes16 in
  py_read b (bs "nodout/x") = OK (Returns (PRows 5 2 [[4; 5]; [9; 10]]%Z)) /\ py_read b (bs "/nodout/ids") = OK (Returns (PArray 6 1 [1; 2]%Z)) /\
  py_read b (bs "nodout/d000002/x") = OK (Returns (PArray 5 2 [9; 10]%Z)) /\ py_read b (bs "nodout") = OK (Returns (PNames [bs "ids"; bs "x"])) /\
  py_read b (bs "/") = OK (Returns (PNames [bs "empty"; bs "nodout"])) /\ py_read b (bs "empty") = UB /\ py_num_timesteps b (bs "nodout") = OK (Returns 2) /\
  py_read b (bs "y") = OK (Raises (bs "The simple path ""y"" can not be found")).
Proof. vm_compute. repeat split; reflexivity. Qed.
(** If the bytes of a step are no whole number of elements, the later steps
    are cut in the wrong places. *)
Theorem C84_cut_refuted : exists ops, history_ok ops /\ specials_are_folders ops /\ py_read (mk (run_dir ops) bytes16) (bs "a/x") = OK (Returns (PRows 6 1 [[1; 2]; [3; 4]]%Z)) /\
  step_value ops bytes16 [bs "a"] [bs "x"] (bs "d2") [4; 5; 6]%Z.
Proof.
  exists [OpFolder (bs "/a/d1"); OpFile (bs "x") (6, 3, 0, 0)%Z; OpFolder (bs "/a/d2"); OpFile (bs "x") (6, 3, 0, 3)%Z]. split; [history|]. split; [|split; [vm_compute; reflexivity|]].
  - intros n i H; cbn in H; repeat (destruct H as [H|H]; [try discriminate H; injection H as <- _|]); try contradiction. all: split; [intros (t & Q & _); discriminate Q|discriminate].
  - exists (6, 3, 0, 3)%Z. split; [exists [([bs "a"; bs "d1"; bs "x"], (6, 3, 0, 0)%Z)], []; split; [reflexivity|intros j []]|]. eexists. split; [reflexivity|]. split; [lia|]. split; [cbn; lia|]. split; [lia|reflexivity].
Qed.

(** Variables without bytes: the file ends too early, the variable is empty,
    the file cannot be accessed. *)
Definition C84_short_ops : list op := [OpFolder (bs "/a"); OpFile (bs "x") (5, 8, 0, 12)%Z; OpFile (bs "y") (5, 0, 0, 0)%Z; OpFile (bs "z") (5, 8, 1, 0)%Z].
Definition C84_short_files : list (option disk) := [Some (Content (repeat 7%Z 16)); Some (Unreadable (bs "No such file"))].
Example C84_no_bytes_case : history_ok C84_short_ops /\ specials_are_folders C84_short_ops /\
  no_bytes C84_short_files 8 0 12 /\ no_bytes C84_short_files 0 0 0 /\ no_bytes C84_short_files 8 1 0 /\
  let b := mk (run_dir C84_short_ops) C84_short_files in
  py_read b (bs "a/x") = OK (Raises (bs "Failed to read ""/a/x""")) /\ py_read b (bs "a/y") = OK (Raises (bs "The file ""/a/y"" is empty")) /\
  py_read b (bs "a/z") = OK (Raises (bs "Failed to access file of ""/a/z"": No such file")).
Proof.
  split; [history|]. split.
  { intros n i H; cbn in H; repeat (destruct H as [H|H]; [try discriminate H; injection H as <- _|]); try contradiction. all: split; [intros (t & Q & _); discriminate Q|discriminate]. }
  split; [right; right; eexists; split; [reflexivity|]; cbn; lia|]. split; [left; reflexivity|]. split; [right; left; eexists; split; [reflexivity|]; split; [cbn; lia|discriminate]|].
  vm_compute. repeat split; reflexivity.
Qed.
Example C85_no_folder_case : let b := mk (run_dir C84_short_ops) C84_short_files in
  cpp_get_children b (bs "/a/x") = OK (Raises (bs "The path ""/a/x"" does not exist")) /\ ~ folder C84_short_ops (elements (bs "/a/x")).
Proof.
  split; [vm_compute; reflexivity|]. intros [Q|(p & P & (r & E))]; [discriminate Q|]. vm_compute in P. destruct P as [<- |[]]. vm_compute in E. discriminate E.
Qed.
