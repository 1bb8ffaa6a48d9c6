(** * Properties C25-C29 *)
From Verif Require Import CBase CBaseFacts SearchModel SearchSpec SearchProofs PathModel PathSpec PathProofs
  KeyTableModel KeyTableProofs BinDirModel BinDirSpec BinDirProofs BinModel BinSpec BinProofs.

Definition fuel_enough (fuel : nat) (files : list bfile) : Prop :=
  Forall (fun f => length (encode (fst (snd f)) (snd (snd f))) < fuel) files.

Lemma open_error_lines errs : open_error errs = error_lines errs.
Proof.
  destruct errs as [|e r]; [reflexivity|]. unfold open_error, error_lines. f_equal. revert e. induction r as [|x r IH]; intros e; [cbn; rewrite app_nil_r; reflexivity|].
  change (join_errors (e :: x :: r)) with (e ++ [LF] ++ join_errors (x :: r)). rewrite IH. reflexivity.
Qed.
(** C25, C28: files with any records in any format the library supports,
    followed by any number of files it cannot use.  Opening them succeeds, the
    error message lists exactly the rejected files, and every typed read of
    every absolute path returns the payload of the last DATA record of this
    path, or fails if there is none, if the type differs or if it is empty. *)
Theorem C28_rejected_last_partial : forall fuel pattern files bad, files <> [] -> length files <= 256 -> Forall file_ok files -> no_clash files ->
  fuel_enough fuel files -> Forall (fun x => rejected (snd x)) bad ->
  exists b errs, binout_open fuel pattern (map on_disk files ++ bad) = OK b /\ b_error b = error_lines errs /\ Forall2 names_it bad errs /\
  forall path t old, ascii_str path -> absolute path -> length path < 900 -> (0 <= t)%Z ->
    exists o r, last_stored (all_stored files) (elements path) o /\ binout_read b old path t = OK r /\ read_meets t o r.
Proof.
  intros fuel pattern files bad Ne L Fo Nc Fu Rj.
  destruct (open_sim2 pattern files bad fuel Ne L Fo Nc Fu Rj) as (b & ops & errs & E & Er & Fe & Bf & D & (_ & _ & _ & C) & _ & R).
  exists b, errs. split; [assumption|]. split; [rewrite Er; apply open_error_lines|]. split; [assumption|]. intros path t old As Ab Lp Ht.
  destruct (read_sim b ops (all_stored files) old path t D C R) as (o & r & Lo & Eq & M & _); auto.
  - intros q v I. eapply all_stored_deep; eassumption.
  - intros x a p H. rewrite Bf in H. eapply files_small; eassumption.
  - exists o, r. auto.
Qed.

Theorem C25_read_back_partial : forall fuel pattern files, files <> [] -> length files <= 256 -> Forall file_ok files -> no_clash files ->
  fuel_enough fuel files ->
  exists b, binout_open fuel pattern (map on_disk files) = OK b /\ b_error b = None /\
  forall path t old, ascii_str path -> absolute path -> length path < 900 -> (0 <= t)%Z ->
    exists o r, last_stored (all_stored files) (elements path) o /\ binout_read b old path t = OK r /\ read_meets t o r.
Proof.
  intros fuel pattern files Ne L Fo Nc Fu.
  destruct (C28_rejected_last_partial fuel pattern files [] Ne L Fo Nc Fu (Forall_nil _)) as (b & errs & E & Er & Fe & R).
  inversion Fe; subst. rewrite app_nil_r in E. exists b. auto.
Qed.

(** [last_stored] determines the value. *)
Lemma last_stored_unique l p o o' : last_stored l p o -> last_stored l p o' -> o = o'.
Proof.
  assert (U : forall v, last_stored l p (Some v) -> forall o', last_stored l p o' -> o' = Some v).
  { intros v (a & b & E & N) [w|]; cbn.
    - intros (a' & b' & E' & N'). rewrite E in E'. clear E. revert a' E'.
      induction a as [|x a IH]; intros [|y a'] E'; cbn in E'; injection E' as E1 E2.
      + congruence.
      + exfalso. apply (N w). rewrite E2. apply in_or_app. right. left. reflexivity.
      + exfalso. apply (N' v). rewrite <- E2. apply in_or_app. right. left. reflexivity.
      + apply IH with a'. exact E2.
    - intros H. exfalso. apply (H v). rewrite E. apply in_or_app. right. left. reflexivity. }
  destruct o as [v|]; intros H H'; [symmetry; apply U; assumption|].
  destruct o' as [v|]; [apply (U v) in H; [discriminate|exact H']|reflexivity].
Qed.

(** C27: after any sequence of CD records the next variable is found in the
    folder these records lead to: [cd_to] lets absolute paths replace the
    folder, relative ones extend it and ".." remove its last element. *)
Theorem C27_navigation_partial : forall fuel pattern fname f paths t name payload path old,
  let file := (fname, (f, map Cd paths ++ [Data t name payload])) in
  file_ok file -> no_clash [file] -> fuel_enough fuel [file] -> payload <> [] ->
  ascii_str path -> absolute path -> length path < 900 -> elements path = fold_left cd_to paths [] ++ [name] ->
  exists b r, binout_open fuel pattern [on_disk file] = OK b /\ b_error b = None /\ binout_read b old path t = OK r /\ r_data r = Some payload.
Proof.
  intros fuel pattern fname f paths t name payload path old file Fo Nc Fu Pn As Ab Lp Ep.
  assert (Ht : (0 <= t)%Z).
  { destruct Fo as (_ & Ro & _). cbn [fst snd] in Ro. apply Forall_app in Ro as (_ & Ro). inversion Ro as [|? ? (_ & _ & _ & H) _]; subst. cbn in H. lia. }
  destruct (C25_read_back_partial fuel pattern [file]) as (b & E & Er & R); auto; [discriminate|cbn; lia|].
  exists b. destruct (R path t old As Ab Lp Ht) as (o & r & Lo & Eq & M).
  assert (o = Some (t, payload)) as ->.
  { apply (last_stored_unique _ _ _ _ Lo). unfold all_stored, file. cbn [map concat fst snd]. rewrite app_nil_r.
    assert (St : forall c, stored c (map Cd paths ++ [Data t name payload]) = [(fold_left cd_to paths c ++ [name], (t, payload))]).
    { clear. induction paths as [|p paths IH]; intros c; cbn [map app stored fold_left]; [reflexivity|apply IH]. }
    rewrite St, <- Ep. exists [], []. split; [reflexivity|]. intros w []. }
  exists r. cbn in M. destruct M as (M & _). destruct (M (conj eq_refl Pn)) as (M1 & _). auto.
Qed.

(** ".." as the first CD leaves the root: the terminator is written before the
    start of the path buffer. *)
Definition fmt : format := {| f_length := 8; f_offset := 8%Z; f_command := 1; f_typeid := 1; f_unused := 0%Z |}.
Definition disk1 (rs : list record) : list (cstr * disk) := [(bs "binout", Content (encode fmt rs))].

Lemma ex_ascii (s : cstr) : forallb (fun b => (0 <? b) && (b <? 128))%Z s = true -> ascii_str s.
Proof. intros H. apply Forall_forall. intros b I. rewrite forallb_forall in H. apply H in I. apply andb_prop in I as (A & B). apply Z.ltb_lt in A, B. lia. Qed.
Ltac rec_ok := unfold record_ok; split; [vm_compute; reflexivity|split; [cbn; lia|split; [vm_compute; reflexivity|repeat split; try (apply ex_ascii; reflexivity); cbn; lia]]].
Ltac fmt_ok := repeat (constructor; [rec_ok|]); constructor.

Theorem C27_above_root_refuted : exists rs, Forall (record_ok fmt) rs /\ forall fuel pattern, binout_open (2 + fuel) pattern (disk1 rs) = UB.
Proof.
  exists [Cd (bs "..")]. split; [|intros; vm_compute; reflexivity].
  fmt_ok.
Qed.
(** A relative path that leads back to the root violates an assertion. *)
Theorem C27_back_to_root_refuted : exists rs, Forall (record_ok fmt) rs /\ forall fuel pattern, binout_open (3 + fuel) pattern (disk1 rs) = UB.
Proof.
  exists [Cd (bs "/a"); Cd (bs "..")]. split; [|intros; vm_compute; reflexivity].
  fmt_ok.
Qed.
(** CD "/" does not leave the folder: the variable lands in the previous one. *)
Theorem C27_cd_root_refuted : exists rs b, Forall (record_ok fmt) rs /\ stored [] rs = [([bs "x"], (5%Z, [7%Z]))] /\
  binout_open 100 [] (disk1 rs) = OK b /\ variable_exists b (bs "/x") = OK false /\ variable_exists b (bs "/a/x") = OK true.
Proof.
  exists [Cd (bs "/a"); Cd (bs "/"); Data 5 (bs "x") [7%Z]]. eexists. split; [fmt_ok|].
  split; [vm_compute; reflexivity|]. split; [vm_compute; reflexivity|]. split; vm_compute; reflexivity.
Qed.
(** ".." inside of an absolute path is taken as a name. *)
Theorem C27_absolute_up_refuted : exists rs b, Forall (record_ok fmt) rs /\ stored [] rs = [([bs "b"; bs "x"], (5%Z, [7%Z]))] /\
  binout_open 100 [] (disk1 rs) = OK b /\ variable_exists b (bs "/b/x") = OK false /\ variable_exists b (bs "/a/../b/x") = OK true.
Proof.
  exists [Cd (bs "/a/../b"); Data 5 (bs "x") [7%Z]]. eexists. split; [fmt_ok|].
  split; [vm_compute; reflexivity|]. split; [vm_compute; reflexivity|]. split; vm_compute; reflexivity.
Qed.

(** C26: typed reads of any directory whatsoever.  Data is returned only if
    the path denotes a variable of the requested type that is not empty, it
    has exactly the recorded size and the element count belongs to it; in all
    other cases there is an error and [*data_size] is untouched. *)
Theorem C26_typed_read_partial : forall b old path t r, (0 <= t)%Z -> binout_read b old path t = OK r ->
  match r_data r with
  | Some bytes => exists name size fi pos,
      (do pv <- path_view_new path; directory_get_file (b_dir b) pv) = OK (Some (File name t size fi pos)) /\
      size <> 0%Z /\ Z.of_nat (length bytes) = size /\ r_size r = (size / element_bytes t)%Z /\ r_error r = None
  | None => r_error r <> None /\ r_size r = old
  end.
Proof.
  intros b old path t r Ht H. rewrite <- type_size_spec by exact Ht.
  assert (Fl : forall m, read_fails old m = OK r -> r_data r = None /\ r_error r <> None /\ r_size r = old).
  { intros m Q. unfold read_fails, error_string in Q. destruct (length m <? 1024); [|discriminate]. cbn in Q. injection Q as <-. cbn. repeat split. discriminate. }
  unfold binout_read in H. destruct (path_view_new path) as [pv| |] eqn:Ev; cbn [bind] in *; try discriminate.
  destruct (directory_get_file (b_dir b) pv) as [file| |] eqn:Ef; cbn [bind] in *; try discriminate.
  destruct file as [[nm vt size fi pos|nm cs]|].
  2,3: destruct (Fl _ H) as (-> & ? & ?); auto.
  destruct (vt =? t)%Z eqn:Et; cbn [negb] in H; [apply Z.eqb_eq in Et; subst vt|destruct (Fl _ H) as (-> & ? & ?); auto].
  destruct (size =? 0)%Z eqn:Es; [destruct (Fl _ H) as (-> & ? & ?); auto|apply Z.eqb_neq in Es].
  destruct (aget (b_files b) (Z.to_nat fi)) as [[[why|data]|]| |]; cbn [bind] in H; try discriminate.
  { destruct (Fl _ H) as (-> & ? & ?); auto. }
  destruct (fseek_to pos) as [p|] eqn:Ep; [|destruct (Fl _ H) as (-> & ? & ?); auto].
  destruct (fread data p size 1) as [[bytes p2]|] eqn:Er; [|destruct (Fl _ H) as (-> & ? & ?); auto].
  injection H as <-. cbn. exists nm, size, fi, pos. split; [reflexivity|]. split; [exact Es|]. split; [|split; reflexivity].
  unfold fread in Er. cbn in Er. destruct ((0 <? size)%Z && (p + size * 1 <=? Z.of_nat (length data))%Z) eqn:B; [|discriminate]. injection Er as <- _.
  apply andb_prop in B as (B1 & B2). apply Z.ltb_lt in B1. apply Z.leb_le in B2.
  assert (0 <= p)%Z. { unfold fseek_to in Ep. destruct ((0 <=? pos)%Z && (pos <? 2 ^ 63)%Z) eqn:Q; [|discriminate]. apply andb_prop in Q as (Q & _). apply Z.leb_le in Q. injection Ep as <-. exact Q. }
  rewrite firstn_length, skipn_length. lia.
Qed.

(** C26: the message of a read that gives nothing says why. *)
Definition type_names : list cstr :=
  [bs "INVALID"; bs "INT8"; bs "INT16"; bs "INT32"; bs "INT64"; bs "UINT8"; bs "UINT16"; bs "UINT32"; bs "UINT64"; bs "FLOAT32"; bs "FLOAT64"].
Definition named (t : Z) (n : cstr) : Prop :=
  if ((1 <=? t) && (t <=? 10))%Z then nth_error type_names (Z.to_nat t) = Some n else n = bs "UNKNOWN".
Theorem C26_messages : forall b old path t r, binout_read b old path t = OK r -> r_data r = None -> exists file m,
  (do pv <- path_view_new path; directory_get_file (b_dir b) pv) = OK file /\ r_error r = Some m /\
  match file with
  | Some (File _ vt size fi pos) =>
      if (vt =? t)%Z then
        if (size =? 0)%Z then m = bs "The file """ ++ path ++ bs """ is empty"
        else match nth_error (b_files b) (Z.to_nat fi) with
             | Some (Some (Unreadable why)) => m = bs "Failed to access file of """ ++ path ++ bs """: " ++ why
             | Some (Some (Content data)) =>
                 if ((0 <=? pos) && (pos <? 2 ^ 63))%Z
                 then m = bs "Failed to read """ ++ path ++ bs """" /\ (size < 0 \/ Z.of_nat (length data) < pos + size)%Z
                 else m = bs "Failed to seek to the position of """ ++ path ++ bs """"
             | _ => False
             end
      else exists have want, named vt have /\ named t want /\
        m = bs """" ++ path ++ bs """ is of type " ++ have ++ bs " instead of " ++ want
  | _ => m = bs """" ++ path ++ bs """ has not been found"
  end.
Proof.
  intros b old path t r H Nd.
  assert (Fl : forall m, read_fails old m = OK r -> r_error r = Some m).
  { intros m Q. unfold read_fails, error_string in Q. destruct (length m <? 1024); [|discriminate]. cbn in Q. injection Q as <-. reflexivity. }
  assert (Nm : forall ty, named ty (type_name ty)).
  { intros ty. unfold named, type_name. destruct ((1 <=? ty) && (ty <=? 10))%Z eqn:B.
    - apply andb_prop in B as (B1 & B2). apply Z.leb_le in B1, B2.
      assert (ty = 1 \/ ty = 2 \/ ty = 3 \/ ty = 4 \/ ty = 5 \/ ty = 6 \/ ty = 7 \/ ty = 8 \/ ty = 9 \/ ty = 10)%Z as K by lia.
      repeat (destruct K as [->|K]; [reflexivity|]). subst. reflexivity.
    - rewrite andb_false_iff, !Z.leb_gt in B. rewrite !(proj2 (Z.eqb_neq _ _)) by lia. reflexivity. }
  unfold binout_read in H. destruct (path_view_new path) as [pv| |] eqn:Ev; cbn [bind] in *; try discriminate.
  destruct (directory_get_file (b_dir b) pv) as [file| |] eqn:Ef; cbn [bind] in *; try discriminate. exists file.
  destruct file as [[nm vt size fi pos|nm cs]|].
  2,3: eexists; split; [reflexivity|]; split; [exact (Fl _ H)|reflexivity].
  destruct (vt =? t)%Z eqn:Et; cbn [negb] in H.
  2: { eexists. split; [reflexivity|]. split; [exact (Fl _ H)|]. exists (type_name vt), (type_name t). auto. }
  destruct (size =? 0)%Z eqn:Es; [eexists; split; [reflexivity|]; split; [exact (Fl _ H)|reflexivity]|].
  unfold aget in H. destruct (nth_error (b_files b) (Z.to_nat fi)) as [[[why|data]|]|]; cbn [bind] in H; try discriminate.
  { eexists; split; [reflexivity|]; split; [exact (Fl _ H)|reflexivity]. }
  unfold fseek_to in H. destruct ((0 <=? pos) && (pos <? 2 ^ 63))%Z eqn:Bp.
  - destruct (fread data pos size 1) as [[bytes p2]|] eqn:Er.
    + injection H as <-. discriminate Nd.
    + eexists; split; [reflexivity|]; split; [exact (Fl _ H)|]. split; [reflexivity|].
      apply andb_prop in Bp as (Bp & _). apply Z.leb_le in Bp. apply Z.eqb_neq in Es.
      unfold fread in Er. cbn [Z.eqb] in Er. destruct ((0 <? size)%Z && (pos + size * 1 <=? Z.of_nat (length data))%Z) eqn:Q; [discriminate|].
      rewrite andb_false_iff, Z.ltb_ge, Z.leb_gt in Q. lia.
  - eexists; split; [reflexivity|]; split; [exact (Fl _ H)|reflexivity].
Qed.

(** A failed read leaves the caller's size as it was instead of setting it to 0. *)
Theorem C26_size_not_reset_refuted : exists b path t old r, binout_read b old path t = OK r /\ r_data r = None /\ r_size r <> 0%Z.
Proof.
  exists {| b_dir := []; b_files := []; b_error := None |}, (bs "/x"), 1%Z, 5%Z. eexists. split; [vm_compute; reflexivity|]. split; [reflexivity|discriminate].
Qed.
(** The message of a failed read of a path of 1024 characters or more does not
    fit its buffer. *)
Theorem C26_long_path_refuted : forall n old t, 1024 <= n ->
  binout_read {| b_dir := []; b_files := []; b_error := None |} old (SEP :: repeat 97%Z n) t = UB.
Proof.
  intros n old t H. destruct n as [|n]; [lia|]. unfold binout_read. cbn [b_dir].
  assert (exists pv, path_view_new (SEP :: repeat 97%Z (S n)) = OK pv) as (pv & ->) by (eexists; reflexivity).
  cbn [bind directory_get_file]. unfold read_fails, error_string.
  rewrite (proj2 (Nat.ltb_ge _ _)); [reflexivity|]. rewrite !app_length. cbn [length repeat]. rewrite repeat_length. lia.
Qed.

(** C28: dropping the closed files keeps every other file at its index as long
    as this index still exists. *)
Theorem C28_cleanup_index_partial : forall handles, exists l, cleanup (S (2 * length handles)) handles 0 = OK l /\
  length l = length (filter (fun h => match h with Some _ => true | None => false end) handles) /\
  ~ In None l /\ forall k d, nth_error handles k = Some (Some d) -> k < length l -> nth_error l k = Some (Some d).
Proof.
  intros handles. destruct (cleanup_spec (S (2 * length handles)) [] handles) as (l & E & L & N & K); [intros ? []|lia|].
  cbn [app length] in *. exists l. split; [exact E|]. split; [|split; [intros Q; exact (N _ Q eq_refl)|exact K]].
  rewrite L. clear. induction handles as [|[h|] r IH]; cbn; auto.
Qed.

(** A broken file before another file: reading a variable of the latter
    accesses the files array out of bounds. *)
Definition good (v : Z) : list record := [Cd (bs "/a"); Data 5 (bs "x") [v]].
Theorem C28_broken_first_refuted : exists files b, binout_open 100 [] files = OK b /\
  In (bs "second", Content (encode fmt (good 7))) files /\ variable_exists b (bs "/a/x") = OK true /\ binout_read b 0 (bs "/a/x") 5 = UB.
Proof.
  exists [(bs "first", Unreadable (bs "no")); (bs "second", Content (encode fmt (good 7)))]. eexists.
  split; [vm_compute; reflexivity|]. split; [right; left; reflexivity|]. split; vm_compute; reflexivity.
Qed.
(** A truncated file before another one: its variable is read from the other
    file. *)
Definition open_and_read (files : list (cstr * disk)) (path : cstr) (t : Z) : res (option cstr * read_result) :=
  do b <- binout_open 100 [] files; do r <- binout_read b 0 path t; OK (b_error b, r).
Theorem C28_wrong_file_refuted : exists e r,
  open_and_read [(bs "first", Content (encode fmt [Cd (bs "/a"); Data 5 (bs "x") [7%Z]] ++ [1%Z])); (bs "second", Content (encode fmt [Cd (bs "/b"); Data 5 (bs "y") [8%Z]]))]
    (bs "/a/x") 5 = OK (e, r) /\ r_data r = Some [8%Z].
Proof. eexists. eexists. split; [vm_compute; reflexivity|reflexivity]. Qed.
(** The file index is stored in 8 bits: with 257 files the variables of the
    last one are read from the first one. *)
Theorem C28_many_files_refuted : exists r,
  open_and_read (repeat (bs "first", Content (encode fmt (good 7))) 256 ++ [(bs "last", Content (encode fmt (good 8)))]) (bs "/a/x") 5 = OK (None, r) /\
  r_data r = Some [7%Z].
Proof. eexists. split; [vm_compute; reflexivity|reflexivity]. Qed.

(** C29: a file that cannot be opened, is shorter than 8 bytes, is big endian,
    has a field size above 8 or a foreign float format yields an error and
    leaves the directory as it was; the message says which of them. *)
Theorem C29_broken_header_partial : forall fuel dir idx d, rejected d -> parse_file fuel dir idx d = OK (dir, Some (reject_message d)).
Proof. exact parse_rejected. Qed.

(** No files: an error that names the pattern; there is nothing in the binout. *)
Theorem C29_no_files : forall fuel pattern, exists b, binout_open fuel pattern [] = OK b /\ b_error b = Some (pattern ++ bs ": No files have been found") /\ b_files b = [] /\ b_dir b = [].
Proof. intros fuel pattern. eexists. repeat split; reflexivity. Qed.

(** A file that ends inside a record yields an error, wherever it ends; the
    message names the field. *)
Theorem C29_truncated_partial : forall fuel nm f rs r k idx, file_ok (nm, (f, rs ++ [r])) -> no_clash [(nm, (f, rs ++ [r]))] -> 0 < k < record_size f r ->
  length (encode f (rs ++ [r])) + 1 < fuel ->
  exists dir, parse_file fuel [] idx (Content (encode f rs ++ firstn k (encode_record f r))) = OK (dir, Some (cut_message f r k)).
Proof. intros. eapply parse_trunc; eassumption. Qed.

(** A record of length 0 (for example a file filled up with zeros) is neither
    skipped nor reported: the record loop goes back to its start for ever. *)
Theorem C29_endless_refuted : exists data, ~ broken_header data /\ forall fuel dir idx, parse_file fuel dir idx (Content data) = OOF.
Proof.
  exists (encode_header fmt ++ repeat 0%Z 9). split.
  - unfold broken_header. cbn. lia.
  - intros fuel dir idx. cbn [parse_file].
    set (data := encode_header fmt ++ repeat 0%Z 9).
    change (fread data 0 8 1) with (Some (encode_header fmt, 8%Z)).
    set (h := header_of (encode_header fmt)).
    change (negb (h_endianess h =? 1)%Z) with false. change (8 <? h_length h)%Z with false.
    change (8 <? h_command h)%Z with false. change (8 <? h_typeid h)%Z with false. change (negb (h_float h =? 0)%Z) with false. cbn iota.
    enough (E : forall st, loop fuel (record_step h idx data) (8%Z, st) = OOF) by (rewrite E; reflexivity).
    induction fuel as [|fuel IH]; intros st; [reflexivity|].
    cbn [loop]. change (record_step h idx data (8%Z, st)) with (@OK ((Z * state) + (state * option cstr)) (inl (8%Z, st))). cbn [bind]. apply IH.
Qed.

(** Tactic for concrete [supported] goals. *)
Ltac sup := vm_compute; repeat match goal with
  | |- _ /\ _ => split
  | |- True => exact I
  | |- _ \/ _ => first [left; reflexivity | right]
  | |- exists _ _, _ => eexists; eexists; split; [reflexivity|discriminate]
  | |- Forall _ _ => apply ex_ascii; reflexivity
  | |- _ -> False => let Q := fresh in intros Q; repeat (destruct Q as [Q|Q]; [discriminate Q|]); first [contradiction|discriminate Q]
  end.

(** ** Two files with nested folders, "..", an overwritten variable, an
    unknown record and different formats *)
Definition fmt2 : format := {| f_length := 4; f_offset := 4%Z; f_command := 2; f_typeid := 3; f_unused := 9%Z |}.
Definition ex_files : list bfile :=
  [(bs "binout0", (fmt, [Cd (bs "/nodout/metadata"); Data 6 (bs "ids") [1; 0; 2; 0]; Cd (bs "../d000001"); Data 9 (bs "x") [0; 0; 128; 63]]))%Z;
   (bs "binout1", (fmt2, [Other 5 [1; 2; 3]; Cd (bs "/"); Cd (bs "nodout"); Cd (bs "d000002"); Data 9 (bs "x") []; Cd (bs "/nodout/metadata"); Data 6 (bs "ids") [3; 0]]))%Z].
Example C25_ex_ok : Forall file_ok ex_files.
Proof.
  constructor; [|constructor; [|constructor]]; (split; [unfold format_ok; cbn; lia|split; [|split; [|vm_compute; reflexivity]]]).
  - fmt_ok.
  - sup.
  - fmt_ok.
  - sup.
Qed.
Example C25_ex_no_clash : no_clash ex_files.
Proof.
  intros q v p Hq Hp (r & E). vm_compute in Hq, Hp.
  repeat (destruct Hq as [Hq|Hq]; [injection Hq as <- _; repeat (destruct Hp as [Hp|Hp]; [rewrite <- Hp in E; vm_compute in E; discriminate E|]); contradiction|]). contradiction.
Qed.
Example C25_ex_fuel : fuel_enough 200 ex_files.
Proof. repeat (constructor; [apply Nat.ltb_lt; vm_compute; reflexivity|]). constructor. Qed.
Example C28_ex_bad : Forall (fun x => rejected (snd x)) [(bs "gone", Unreadable (bs "No such file")); (bs "short", Content [8; 8; 8]%Z); (bs "big", Content [8; 8; 8; 1; 1; 0; 0; 0]%Z)].
Proof. repeat constructor; cbn; unfold broken_header; cbn; lia. Qed.
Example C27_ex_paths : fold_left cd_to [bs "/nodout/metadata"; bs "../d000001"; bs "/"; bs "a/b"; bs "../../c"] [] = [bs "c"].
Proof. vm_compute. reflexivity. Qed.
Example C27_ex_file : let file := (bs "binout", (fmt, map Cd [bs "/nodout/metadata"; bs "../d1"] ++ [Data 5 (bs "x") [7%Z]])) in file_ok file /\ no_clash [file].
Proof.
  split.
  - split; [unfold format_ok; cbn; lia|split; [|split; [|vm_compute; reflexivity]]].
    + fmt_ok.
    + sup.
  - intros q v p Hq Hp (r & E). vm_compute in Hq, Hp.
    repeat (destruct Hq as [Hq|Hq]; [injection Hq as <- _; repeat (destruct Hp as [Hp|Hp]; [rewrite <- Hp in E; vm_compute in E; discriminate E|]); contradiction|]). contradiction.
Qed.
Example C29_ex_truncated : file_ok (bs "f", (fmt, good 7)) /\ exists dir m, parse_file 200 [] 0 (Content (encode fmt [Cd (bs "/a")] ++ firstn 12 (encode_record fmt (Data 5 (bs "x") [7%Z])))) = OK (dir, Some m).
Proof.
  split.
  - split; [unfold format_ok; cbn; lia|split; [|split; [|vm_compute; reflexivity]]].
    + fmt_ok.
    + sup.
  - eexists. eexists. vm_compute. reflexivity.
Qed.

Print Assumptions C25_read_back_partial.
Print Assumptions C26_typed_read_partial.
Print Assumptions C27_navigation_partial.
Print Assumptions C28_rejected_last_partial.
Print Assumptions C29_truncated_partial.
Print Assumptions C26_messages.
