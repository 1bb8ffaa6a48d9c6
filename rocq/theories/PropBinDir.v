(** * Properties C23, C24 *)
From Coq Require Import Sorting.Sorted.
From Verif Require Import CBase CBaseFacts SearchModel SearchSpec SearchProofs PathModel PathSpec PathProofs
  KeyTableModel KeyTableProofs BinDirModel BinDirSpec BinDirProofs.

(** C23: for every history of insertions that is [history_ok] the execution is
    defined, and afterwards looking up any absolute path gives exactly the
    type, size, file and position of the last variable recorded under it, and
    nothing if none was recorded. *)
Theorem C23_lookup_partial : forall ops, history_ok ops ->
  exists dir cur, run [] None ops = OK (dir, cur) /\
  forall path, ascii_str path -> absolute path ->
    exists o, last_record (records [] ops) (elements path) o /\
      get_file dir path = OK (match o with
                              | Some (vt, sz, fi, pos) => Some (File (last (elements path) []) vt sz fi pos)
                              | None => None
                              end).
Proof.
  intros ops H. destruct (history_run ops H) as (dir & cur & E & D). exists dir, cur. split; [exact E|].
  intros path As Ab. rewrite (get_file_spec dir path (proj1 D) As Ab (denotes_top ops dir H D)).
  pose proof (proj2 D (elements path)) as Q. destruct H as (_ & _ & _ & Nc).
  destruct (nd dir (elements path)) as [[i|]|].
  - exists (Some i). split; [exact Q|]. destruct i as [[[vt sz] fi] pos]. reflexivity.
  - exists None. split; [|reflexivity]. cbn [last_record]. intros j I.
    destruct Q as [Q|Q]; [|apply (Nc _ _ I); exact Q]. rewrite Q in I. clear - I.
    assert (K : forall c, ~ In ([], j) (records c ops)); [|exact (K _ I)].
    clear. induction ops as [|[p|n i] ops IH]; intros c; cbn; [tauto|apply IH|]. intros [Q|Q]; [|exact (IH _ Q)].
    injection Q as Q _. destruct c; discriminate.
  - exists None. split; [exact (proj1 Q)|reflexivity].
Qed.

Lemma records_files ops : forall c q i, In (q, i) (records c ops) -> exists n, In (OpFile n i) ops /\ last q [] = n.
Proof.
  induction ops as [|[p|n j] ops IH]; intros c q i I; cbn in I; [contradiction| |].
  - destruct (IH _ _ _ I) as (m & A & B). exists m. split; [right; exact A|exact B].
  - destruct I as [Q|I]; [injection Q as <- <-; exists n; split; [left; reflexivity|apply last_last]|].
    destruct (IH _ _ _ I) as (m & A & B). exists m. split; [right; exact A|exact B].
Qed.

(** Inserting one variable does not change any other path: the history with
    one more variable answers every other path as before. *)
Theorem C23_frame_partial : forall ops n i, history_ok (ops ++ [OpFile n i]) -> ops <> [] ->
  exists dir cur dir', run [] None ops = OK (dir, cur) /\ insert_variable dir cur n i = OK dir' /\
  forall path, ascii_str path -> absolute path ->
    elements path <> cur_of [] ops ++ [n] ->
    get_file dir' path = get_file dir path.
Proof.
  intros ops n i H Ne.
  assert (H0 : history_ok ops).
  { destruct H as (A & B & F & Nc). split; [intros; apply A; apply in_or_app; auto|]. split; [intros; eapply B; apply in_or_app; eauto|].
    split; [destruct ops as [|[]]; [exact I|exact I|exact F]|]. apply (noclash_prefix ops [OpFile n i]). exact Nc. }
  destruct (C23_lookup_partial ops H0) as (dir & cur & E & L). destruct (C23_lookup_partial _ H) as (dir' & cur' & E' & L').
  exists dir, cur. assert (R : forall d c a b, run d c (a ++ b) = do '(d1, c1) <- run d c a; run d1 c1 b).
  { clear. intros d c a. revert d c. induction a as [|[p|m j] a IH]; intros d c b; cbn [run app]; [reflexivity| |].
    - destruct (insert_folder_path d p) as [[d1 c1]| |]; cbn [bind]; [apply IH|reflexivity|reflexivity].
    - destruct (insert_variable d c m j) as [d1| |]; cbn [bind]; [apply IH|reflexivity|reflexivity]. }
  rewrite R, E in E'. cbn [bind run] in E'. destruct (insert_variable dir cur n i) as [d1| |] eqn:Ei; try discriminate. cbn [bind] in E'.
  injection E' as -> ->. exists dir'. split; [exact E|]. split; [reflexivity|]. intros path As Ab Nin.
  destruct (L path As Ab) as (o & Lo & ->). destruct (L' path As Ab) as (o' & Lo' & ->).
  assert (o' = o) as ->; [|reflexivity].
  assert (Er : records [] (ops ++ [OpFile n i]) = records [] ops ++ [(cur_of [] ops ++ [n], i)]) by (rewrite records_app; reflexivity).
  rewrite Er in Lo'.
  pose proof (last_record_app _ (cur_of [] ops ++ [n]) i _ _ Lo) as La.
  destruct (list_eq_dec (list_eq_dec Z.eq_dec) (cur_of [] ops ++ [n]) (elements path)) as [Q|_]; [exfalso; apply Nin; congruence|].
  exact (last_record_unique _ _ _ _ Lo' La).
Qed.

(** C24: the listing of the root and of every recorded folder has strictly
    increasing names, and they are the names of exactly its direct children;
    any other path lists nothing. *)
Theorem C24_listing_partial : forall ops, history_ok ops ->
  exists dir cur, run [] None ops = OK (dir, cur) /\
  forall path, ascii_str path -> absolute path ->
    (elements path = [] \/ is_folder_path ops (elements path) ->
       exists cs, get_children dir path = OK (Some cs) /\ names_strict (map ename cs) /\
         (forall n, In n (map ename cs) <->
            is_folder_path ops (elements path ++ [n]) \/ exists i, In (elements path ++ [n], i) (records [] ops))) /\
    (~ (elements path = [] \/ is_folder_path ops (elements path)) ->
       (below_empty ops (elements path) -> get_children dir path = OK (Some [])) /\
       (~ below_empty ops (elements path) -> get_children dir path = OK None)).
Proof.
  intros ops H. destruct (history_run ops H) as (dir & cur & E & D). exists dir, cur. split; [exact E|].
  intros path As Ab. destruct (get_children_spec dir path (proj1 D) As Ab) as (r & Er & Q).
  pose proof H as (_ & _ & _ & Nc). split.
  - intros F. assert (Nf : nd dir (elements path) = Some NFolder).
    { destruct F as [->|F]; [reflexivity|apply (denotes_folder ops dir D Nc); exact F]. }
    apply nd_children in Nf as [sub Cs]. rewrite Cs in Q. subst r. exists sub. split; [exact Er|].
    destruct ((proj1 D) _ _ Cs) as [Gs _]. split; [exact Gs|]. intros n.
    pose proof (proj2 D (elements path ++ [n])) as Dn. rewrite (nd_app dir _ sub [n] Cs), nd_cons in Dn. cbn [node_of] in Dn.
    destruct (find_name n sub) as [e|] eqn:Fe.
    + apply find_name_some in Fe as [Fi Fn]. split.
      * intros _. destruct (kind e) as [i|]; [right; exists i; apply last_record_in; exact Dn|].
        destruct Dn as [Dn|Dn]; [destruct (elements path); discriminate|left; exact Dn].
      * intros _. rewrite <- Fn. apply in_map. exact Fi.
    + apply find_name_none in Fe. split; [contradiction|]. destruct Dn as [D1 D2]. intros [B|[i B]]; [contradiction|]. exfalso. exact (D1 i B).
  - intros F. destruct (children_at dir (elements path)) as [sub|] eqn:Cs.
    + exfalso. apply F. assert (Nf : nd dir (elements path) = Some NFolder) by (apply nd_children; eauto).
      pose proof (proj2 D (elements path)) as Dn. rewrite Nf in Dn. exact Dn.
    + assert (Hb : below_empty ops (elements path) <-> hollow dir (elements path) = true).
      { rewrite hollow_true. split; intros (a & b & Ea & Nb & X); exists a, b; (split; [exact Ea|]; split; [exact Nb|]).
        - destruct X as (Fa & Em). assert (Nf : nd dir a = Some NFolder) by (destruct Fa as [-> |Fa]; [reflexivity|apply (denotes_folder ops dir D Nc); exact Fa]).
          apply nd_children in Nf as [sub Ca]. rewrite Ca. f_equal. destruct sub as [|e sub]; [reflexivity|]. exfalso.
          pose proof (proj2 D (a ++ [ename e])) as Dn. rewrite (nd_app dir _ _ [ename e] Ca), nd_cons in Dn. cbn [node_of] in Dn.
          destruct (find_name (ename e) (e :: sub)) as [e'|] eqn:Fe; [|apply find_name_none in Fe; apply Fe; left; reflexivity].
          destruct (Em (ename e)) as [E1 E2]. destruct (kind e') as [i|]; [apply (E2 i), last_record_in; exact Dn|].
          destruct Dn as [Dn|Dn]; [destruct a; discriminate|exact (E1 Dn)].
        - split.
          + assert (Nf : nd dir a = Some NFolder) by (apply nd_children; eauto). pose proof (proj2 D a) as Dn. rewrite Nf in Dn. exact Dn.
          + intros n. pose proof (proj2 D (a ++ [n])) as Dn. rewrite (nd_app dir _ _ [n] X), nd_cons in Dn. cbn [find_name find] in Dn. destruct Dn as [D1 D2]. split; [exact D2|exact D1]. }
      rewrite Er, Q. destruct (hollow dir (elements path)); (split; intros B; [try reflexivity|try reflexivity]).
      * exfalso. apply B, Hb. reflexivity.
      * apply Hb in B. discriminate.
Qed.

(** ** What is missing, and why *)

(** A variable with the name of a folder of the same directory: the name the
    table keeps is freed (binout_directory.c:182-190). *)
Theorem C23_variable_over_folder_refuted : exists ops, run [] None ops = UB /\
  (forall p, In (OpFolder p) ops -> clean p) /\ (match ops with OpFile _ _ :: _ => False | _ => True end).
Proof.
  exists [OpFolder (bs "/a/b"); OpFolder (bs "/a"); OpFile (bs "b") (1, 1, 0, 0)%Z]. split; [vm_compute; reflexivity|].
  split; [|exact I]. intros p [Q|[Q|[Q|[]]]]; [injection Q as <-|injection Q as <-|discriminate].
  - split; [repeat constructor|]. exists 97%Z, (bs "/b"). split; [reflexivity|discriminate].
  - split; [repeat constructor|]. exists 97%Z, []. split; [reflexivity|discriminate].
Qed.

(** A folder below a variable: no folder is returned, and the next variable is
    stored through a NULL pointer (binout.c:289). *)
Theorem C23_folder_below_variable_refuted : exists ops dir, run [] None ops = OK (dir, None) /\
  forall n i, run [] None (ops ++ [OpFile n i]) = UB.
Proof.
  exists [OpFolder (bs "/a"); OpFile (bs "b") (1, 1, 0, 0)%Z; OpFolder (bs "/a/b/c")]. eexists. split; [vm_compute; reflexivity|].
  intros n i. vm_compute. reflexivity.
Qed.

(** A folder path with two separators in front fails the assertion
    binout_directory.c:37-39. *)
Theorem C23_double_separator_refuted : insert_folder_path [] (bs "//a") = UB.
Proof. vm_compute. reflexivity. Qed.

(** Names above 127 sort as unsigned characters and are looked up as signed
    ones: a recorded variable is not found. *)
Theorem C23_non_ascii_refuted : exists ops dir cur path i,
  run [] None ops = OK (dir, cur) /\ absolute path /\
  last_record (records [] ops) (elements path) (Some i) /\ get_file dir path = OK None.
Proof.
  exists [OpFolder (bs "/a"); OpFile [200%Z] (1, 1, 0, 0)%Z; OpFile (bs "b") (1, 2, 0, 0)%Z; OpFile (bs "c") (1, 3, 0, 0)%Z].
  eexists. eexists. exists (bs "/a/" ++ [200%Z]), (1, 1, 0, 0)%Z.
  split; [vm_compute; reflexivity|]. split; [eexists; reflexivity|]. split; [|vm_compute; reflexivity].
  exists [], [([bs "a"; bs "b"], (1, 2, 0, 0)%Z); ([bs "a"; bs "c"], (1, 3, 0, 0)%Z)]. split; [reflexivity|].
  intros j [Q|[Q|[]]]; discriminate.
Qed.

(** A path that was never recorded is listed as an existing folder without
    children (count 0 instead of ~0) if it lies below an empty folder or in an
    empty directory. *)
Theorem C24_unknown_below_empty_refuted : exists ops dir cur path,
  history_ok ops /\ run [] None ops = OK (dir, cur) /\ absolute path /\
  ~ is_folder_path ops (elements path) /\ get_children dir path = OK (Some []).
Proof.
  exists [OpFolder (bs "/a")]. eexists. eexists. exists (bs "/a/x"). split; [|split; [vm_compute; reflexivity|split; [eexists; reflexivity|split; [|vm_compute; reflexivity]]]].
  - split; [|split; [|split; [exact I|intros q i []]]].
    + intros p [Q|[]]. injection Q as <-. split; [repeat constructor|]. exists 97%Z, []. split; [reflexivity|discriminate].
    + intros n i [Q|[]]. discriminate.
  - intros (p & [<-|[]] & (r & E)). vm_compute in E. destruct r; discriminate.
Qed.

(** ** A history with nested folders, an overwritten variable and a return to
    an earlier folder *)
Definition ex_ops : list op :=
  [OpFolder (bs "/nodout/metadata"); OpFile (bs "ids") (6, 12, 0, 40)%Z; OpFolder (bs "/nodout/d000001"); OpFile (bs "x") (9, 8, 0, 70)%Z;
   OpFile (bs "a") (9, 8, 0, 90)%Z; OpFolder (bs "/nodout/metadata"); OpFile (bs "ids") (6, 16, 1, 10)%Z].
Example C23_ex_history : history_ok ex_ops.
Proof.
  split; [|split; [|split; [exact I|]]].
  - intros p H. cbn in H. repeat (destruct H as [Q|H]; [try discriminate Q; injection Q as <-; (split; [repeat constructor|]); eexists; eexists; (split; [reflexivity|discriminate])|]). contradiction.
  - intros n i H. cbn in H. repeat (destruct H as [Q|H]; [try discriminate Q; injection Q as <- _; repeat constructor|]). contradiction.
  - intros q i H (p & P & (r & E)). vm_compute in H, P.
    repeat (destruct H as [H|H]; [injection H as <- _; repeat (destruct P as [P|P]; [rewrite <- P in E; vm_compute in E; discriminate E|]); contradiction|]). contradiction.
Qed.
Example C23_ex_lookup : exists dir cur, run [] None ex_ops = OK (dir, cur) /\
  get_file dir (bs "/nodout/metadata/ids") = OK (Some (File (bs "ids") 6 16 1 10)) /\
  get_file dir (bs "/nodout/d000001/x") = OK (Some (File (bs "x") 9 8 0 70)) /\
  get_file dir (bs "/nodout/x") = OK None /\
  option_map (map ename) (match get_children dir (bs "/nodout") with OK o => o | _ => None end) = Some [bs "d000001"; bs "metadata"].
Proof. eexists. eexists. split; [vm_compute; reflexivity|]. vm_compute. auto. Qed.

Print Assumptions C23_lookup_partial.
Print Assumptions C23_frame_partial.
Print Assumptions C24_listing_partial.
