(** * Property theorems: C03-C06 (paths) *)
From Coq Require Import Sorting.Sorted.
From Verif Require Import CBase SearchModel SearchSpec SearchProofs PathModel PathSpec PathProofs.

(** C03: creating a view and advancing it until it reports the end shows the
    root (absolute paths only) and then exactly the elements, in order. *)
Theorem C03_path_iteration : forall s : cstr, is_cstr s ->
  (absolute s -> visit s = OK ([47%Z] :: elements s)) /\
  (relative s -> visit s = OK (elements s)).
Proof. exact visit_spec. Qed.
Print Assumptions C03_path_iteration.

Example C03_nonvacuous :
  visit (bs "//nodout///metadata/ids//") = OK [bs "/"; bs "nodout"; bs "metadata"; bs "ids"] /\
  elements (bs "//nodout///metadata/ids//") = [bs "nodout"; bs "metadata"; bs "ids"] /\
  is_cstr (bs "//nodout///metadata/ids//").
Proof. split; [reflexivity|split; [reflexivity|]]. repeat constructor. Qed.

(** C03: the text of a view as a string of its own. *)
Theorem C03_text_copied : forall (s : cstr) (pv : path_view), is_cstr s -> view_on s pv ->
  path_view_stralloc pv = OK (view_text pv).
Proof. intros s pv H V. destruct (view_on_ok s pv H V) as (E & K). apply stralloc_spec; [exact K|]. rewrite E. exact H. Qed.
Print Assumptions C03_text_copied.

(** C03: which paths are absolute. *)
Theorem C03_is_absolute : forall s : cstr,
  (absolute s -> path_is_abs s = OK true) /\ (relative s -> path_is_abs s = OK false).
Proof.
  intros s. split; intros H.
  - destruct H as [t ->]. reflexivity.
  - destruct H as (c & t & -> & N). unfold path_is_abs, cget. cbn. unfold is_sep. destruct (Z.eqb_spec c SEP) as [->|_]; [exfalso; apply N; reflexivity|reflexivity].
Qed.

(** C04: result 0 iff the shown text equals the name. *)
Theorem C04_element_equality : forall (s : cstr) (pv : path_view) (name : cstr),
  is_cstr s -> is_cstr name -> view_on s pv ->
  exists c, path_view_strcmp pv name = OK c /\ (c = 0%Z <-> view_text pv = name).
Proof. exact view_eq. Qed.
Print Assumptions C04_element_equality.

(** C04: the sign agrees with the byte order, for 7-bit names. *)
Theorem C04_element_order_partial : forall (s : cstr) (pv : path_view) (name : cstr),
  ascii_str s -> ascii_str name -> view_on s pv ->
  exists c, path_view_strcmp pv name = OK c /\
    ((c < 0)%Z <-> bytes_lt (view_text pv) name) /\ ((0 < c)%Z <-> bytes_lt name (view_text pv)).
Proof. exact view_order. Qed.
Print Assumptions C04_element_order_partial.

(** C01/C04: lookup of a path element in a folder's sorted entry table. *)
Theorem C04_entry_lookup_partial : forall (s : cstr) (pv : path_view) (names : list cstr) (i : nat),
  ascii_str s -> view_on s pv -> Forall ascii_str names -> names <> [] -> names_strict names ->
  (entry_binary_search names 0 (length names - 1) pv = OK (Some i) <-> nth_error names i = Some (view_text pv)) /\
  (entry_binary_search names 0 (length names - 1) pv = OK None <-> ~ In (view_text pv) names).
Proof. exact entry_lookup. Qed.
Print Assumptions C04_entry_lookup_partial.

Definition pv_nodout : path_view := {| pv_string := bs "/nodout/d1"; pv_start := 1; pv_end := 6 |}.
Example C04_nonvacuous :
  view_on (bs "/nodout/d1") pv_nodout /\ view_text pv_nodout = bs "nodout" /\
  ascii_str (bs "/nodout/d1") /\
  names_strict [bs "elout"; bs "nodout"; bs "nodouthf"] /\
  entry_binary_search [bs "elout"; bs "nodout"; bs "nodouthf"] 0 2 pv_nodout = OK (Some 1).
Proof.
  repeat split.
  - eapply (view_next _ {| pv_string := bs "/nodout/d1"; pv_start := 0; pv_end := 0 |}); [apply view_first|]; reflexivity.
  - repeat constructor.
  - apply strictb_sound. reflexivity.
Qed.

(** C04 is false for bytes >= 128: [path_view_strcmp] compares signed chars
    while entries are stored in [strcmp] order, so a stored entry is missed. *)
Theorem C04_entry_lookup_refuted : exists (s : cstr) (pv : path_view) (names : list cstr),
  is_cstr s /\ Forall is_cstr names /\ view_on s pv /\ names_strict names /\
  In (view_text pv) names /\
  entry_binary_search names 0 (length names - 1) pv = OK None.
Proof.
  exists [47; 195]%Z, {| pv_string := [47; 195]%Z; pv_start := 1; pv_end := 1 |}, [[122]; [195]]%Z.
  repeat split.
  - repeat constructor.
  - repeat constructor.
  - eapply (view_next _ {| pv_string := [47; 195]%Z; pv_start := 0; pv_end := 0 |}); [apply view_first|]; reflexivity.
  - apply strictb_sound. reflexivity.
  - right. left. reflexivity.
Qed.
Print Assumptions C04_entry_lookup_refuted.

(** C05: the joined path has the elements of both, in order; no read or write
    leaves its buffer. *)
Theorem C05_join_elements : forall lhs rhs : cstr, is_cstr lhs -> is_cstr rhs -> lhs <> [] ->
  exists s, path_join lhs rhs = OK s /\ elements s = elements lhs ++ elements rhs.
Proof. exact join_elements. Qed.
Print Assumptions C05_join_elements.

(** C05: exactly one separator, the rest of both operands unchanged. *)
Theorem C05_join_one_separator : forall lhs rhs : cstr, is_cstr lhs -> is_cstr rhs ->
  elements lhs <> [] -> (rhs = [] \/ elements rhs <> []) ->
  exists a trailing b leading,
    lhs = a ++ trailing /\ rhs = leading ++ b /\ seps trailing /\ seps leading /\
    (exists q z, a = q ++ [z] /\ z <> SEP) /\
    (match b with [] => rhs = [] | x :: _ => x <> SEP end) /\
    path_join lhs rhs = OK (a ++ SEP :: b).
Proof. exact join_one_sep. Qed.
Print Assumptions C05_join_one_separator.

Example C05_nonvacuous :
  path_join (bs "/a/b//") (bs "//c/d") = OK (bs "/a/b/c/d") /\ elements (bs "/a/b//") <> [] /\ elements (bs "//c/d") <> [].
Proof. repeat split; discriminate. Qed.

(** C05 fails for an empty left operand (out of bounds read) and yields two
    separators if the left operand is the root. *)
Theorem C05_join_empty_refuted : forall rhs : cstr, path_join [] rhs = UB.
Proof. exact (fun _ => eq_refl). Qed.
Print Assumptions C05_join_empty_refuted.
Theorem C05_join_root_refuted : path_join (bs "/") (bs "a") = OK (bs "//a").
Proof. exact eq_refl. Qed.
Print Assumptions C05_join_root_refuted.

(** C06: for an absolute path with at least one element, cutting the string at
    the returned index (callers keep at least the root separator) gives an
    absolute path with the last element removed. *)
Theorem C06_move_up_parent : forall s : cstr, is_cstr s -> absolute s -> elements s <> [] ->
  exists k, path_move_up s = OK (Some k) /\ k < length s /\
    absolute (firstn (Nat.max 1 k) s) /\
    elements (firstn (Nat.max 1 k) s) = removelast (elements s).
Proof. exact move_up_parent. Qed.
Print Assumptions C06_move_up_parent.

Theorem C06_move_up_root : forall s : cstr, absolute s -> elements s = [] -> path_move_up s = OK None.
Proof. exact move_up_root. Qed.
Print Assumptions C06_move_up_root.

Example C06_nonvacuous :
  path_move_up (bs "/nodout//d000001/") = OK (Some 7) /\ elements (bs "/nodout//d000001/") = [bs "nodout"; bs "d000001"].
Proof. split; reflexivity. Qed.

(** C06 is false for relative paths: the parent of "a/b" is "a" (cut at 1). *)
Theorem C06_move_up_relative_refuted : exists s : cstr,
  is_cstr s /\ relative s /\ length (elements s) = 2 /\ path_move_up s = OK (Some 0).
Proof.
  exists (bs "a/b"). repeat split; [repeat constructor|]. exists 97%Z, (bs "/b"). split; [reflexivity|discriminate].
Qed.
Print Assumptions C06_move_up_relative_refuted.
Print Assumptions C03_is_absolute.
