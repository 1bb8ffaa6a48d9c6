(** * Property C103: the readers of a binout keep no memory *)
From Coq Require Import Sorting.Permutation.
From Verif Require Import CBase PathModel BinDirModel BinModel TimedModel BinDirSpec PropTimed CppArrayModel OwnModel ReadMemSpec ReadMemProofs BinMemModel BinMemSpec BinMemProofs.
Open Scope nat_scope.

(** Every call, whatever the client holds: the function with its memory does the same
    as the function without and is never undefined because of memory; afterwards the
    client holds the result besides, the error string is the only other block. *)
Theorem C103_type_id : forall h0 h e others b path, holds h0 h e others -> alike (get_type_id b path) (get_type_id_mem h e b path) (gives_type h0 others).
Proof. intros. apply get_type_id_mem_ok. assumption. Qed.
Theorem C103_children : forall h0 h e others b path, holds h0 h e others -> alike (binout_get_children b path) (get_children_mem h b path) (gives_children h0 e others).
Proof. intros. apply get_children_mem_ok. assumption. Qed.
Theorem C103_open_error : forall h0 h e others error, holds h0 h e others ->
  exists h' p, open_error_mem h error = (h', p) /\ null_iff p error /\ holds h0 h' e (p :: others).
Proof. intros. apply open_error_mem_ok. assumption. Qed.
Theorem C103_read : forall h0 h e others b old path t, holds h0 h e others -> alike (binout_read b old path t) (binout_read_mem h e b old path t) (gives_read h0 others).
Proof. intros. apply binout_read_mem_ok. assumption. Qed.
Theorem C103_read_timed : forall h0 h e others b path values steps t, holds h0 h e others ->
  alike (read_timed b path values steps t) (read_timed_mem h e b path values steps t) (gives_timed h0 others).
Proof. intros. apply read_timed_mem_ok. assumption. Qed.
Theorem C103_real_path : forall h0 h e others b simple, holds h0 h e others -> alike (simple_path_to_real b simple) (simple_path_to_real_mem h b simple) (gives_real h0 e others).
Proof. intros. apply simple_mem_ok. assumption. Qed.

(** A returned block has exactly as many elements as there are values. *)
Theorem C103_read_room : forall h e b old path t h' e' r p v,
  binout_read_mem h e b old path t = OK (h', e', r, Some p) -> r_data r = Some v -> room h' p (length v).
Proof. exact binout_read_room. Qed.
Theorem C103_timed_room : forall h0 h e others b path values steps t h' e' r p v, holds h0 h e others ->
  read_timed_mem h e b path values steps t = OK (h', e', r, Some p) -> t_data r = Some v -> room h' p (length v).
Proof. intros h0 h e others b path values steps t h' e' r p v L. exact (read_timed_room _ _ _ _ _ _ _ _ _ _ _ _ _ _ L). Qed.

(** The array of children has as many pointers as there are names. *)
Theorem C103_children_room : forall h b path h' cs p, get_children_mem h b path = OK (h', Some cs, Some p) -> room h' p (length cs).
Proof. exact children_room. Qed.
(** An error string has room for the message and its terminator, whichever call made it ... *)
Theorem C103_error_room : forall h e b path h' e' m,
  (forall t, get_type_id_mem h e b path = OK (h', e', (t, Some m)) -> holds_text h' e' m) /\
  (forall old t r p, binout_read_mem h e b old path t = OK (h', e', r, p) -> r_error r = Some m -> holds_text h' e' m) /\
  (forall h0 others values steps t r p, holds h0 h e others -> read_timed_mem h e b path values steps t = OK (h', e', r, p) -> t_error r = Some m -> holds_text h' e' m) /\
  holds_text (fst (open_error_mem h (Some m))) (snd (open_error_mem h (Some m))) m.
Proof.
  intros. split; [intros t; apply type_id_text|]. split; [intros old t r p; apply read_text|]. split; [|apply open_error_text].
  intros h0 others values steps t r p L. exact (read_timed_text _ _ _ _ _ _ _ _ _ _ _ _ _ _ L).
Qed.
(** ... and a real path has room for the path and its terminator. *)
Theorem C103_path_room : forall h b simple h' path t timed p, simple_path_to_real_mem h b simple = OK (h', Some (path, t, timed), p) -> holds_text h' p path.
Proof. exact simple_text. Qed.

(** Any sequence of defined calls on a handle that was opened without an error: what is
    left is what the client has not freed yet and at most one error string, which is
    there exactly if the last call that sets it failed; freeing all of it gives back
    everything. *)
Theorem C103_client : forall b h0 ks, calls_ok b 0 ks ->
  exists c, bin_run b {| bc_heap := h0; bc_error := None; bc_ptr := None; bc_results := [] |} ks = OK c /\
    holds h0 (bc_heap c) (bc_ptr c) (bc_results c) /\ null_iff (bc_ptr c) (bc_error c) /\
    exists h, h_free_all (bc_heap c) (bc_ptr c :: bc_results c) = OK h /\ leaves_nothing h0 h.
Proof.
  intros b h0 ks C. destruct (client_run b h0 ks {| bc_heap := h0; bc_error := None; bc_ptr := None; bc_results := [] |} 0) as (c & got & E & L & N & _); [|exact C|].
  - split; [apply -> leaves_none; apply leaves_refl|]. split; [unfold null_iff; cbn; tauto|reflexivity].
  - exists c. split; [exact E|]. split; [exact L|]. split; [exact N|].
    destruct (leaves_free_all (bc_ptr c :: bc_results c) h0 (bc_heap c) []) as (h & F & L2); [rewrite app_nil_r; exact L|]. exists h. auto.
Qed.

(** ** A variable in a folder of the steps' folders *)
Definition ex_nested : list BinDirSpec.op :=
  [OpFolder (bs "/m/d000001/part"); OpFile (bs "x") (5, 2, 0, 3)%Z; OpFolder (bs "/m/d000002/part"); OpFile (bs "x") (5, 2, 0, 8)%Z].
Definition ex_handle : binout := mk (run_dir ex_nested) bytes16.
Definition ex_calls : list bin_call :=
  [BReadTimed (bs "/m/part/x") 5; BTypeId (bs "/m/y"); BOpenError; BChildren (bs "/m"); BReadTimed (bs "/m/part/z") 5;
   BFree 0; BRead (bs "/m/d000001/part/x") 5; BReal (bs "m/part/x"); BRead (bs "/m/d000001/part/x") 6; BFree 3].
Example C103_ex_calls : calls_ok ex_handle 0 ex_calls.
Proof. repeat match goal with |- _ /\ _ => split | |- exists _, _ => eexists; vm_compute; reflexivity | |- _ < _ => repeat constructor | _ => cbn [calls_ok ex_calls] end. exact I. Qed.
Example C103_ex_timed : read_timed ex_handle (bs "/m/part/x") 0 0 5 = OK {| t_data := Some [4; 5; 9; 10]%Z; t_values := 2; t_steps := 2; t_error := None |} /\
  exists h, read_timed_mem [] None ex_handle (bs "/m/part/x") 0 0 5 = OK (h, None, {| t_data := Some [4; 5; 9; 10]%Z; t_values := 2; t_steps := 2; t_error := None |}, Some (1, 0)) /\
    length h = 2 /\ nth_error h 0 = Some None.
Proof. vm_compute. repeat split. eexists. repeat split. Qed.
Example C103_ex_run : exists c, bin_run ex_handle {| bc_heap := []; bc_error := None; bc_ptr := None; bc_results := [] |} ex_calls = OK c /\
  bc_error c = Some (bs """/m/d000001/part/x"" is of type UINT8 instead of UINT16") /\
  map (fun p => match p with None => false | Some _ => true end) (bc_ptr c :: bc_results c) = [true; false; false; true; false; false; true; true; false].
Proof. vm_compute. eexists. repeat split. Qed.
(** A search that fails in the middle of the path has made a node. *)
Example C103_ex_search : exists h e, search_timed_mem [] None ex_handle (bs "/m/part/z") = OK (h, e, [(0, 0)], inl (no_variable (bs "/m/part/z"))).
Proof. vm_compute. eexists. eexists. reflexivity. Qed.
(** The blocks of a name, an array of names and an error. *)
Example C103_ex_rooms :
  (exists h p path, simple_path_to_real_mem [] ex_handle (bs "m/part/x") = OK (h, Some (path, 5%Z, true), p) /\ length path = 9) /\
  (exists h p cs, get_children_mem [] ex_handle (bs "/m") = OK (h, Some cs, Some p) /\ length cs = 2) /\
  (exists h e t m, get_type_id_mem [] None ex_handle (bs "/m/y") = OK (h, e, (t, Some m)) /\ length m = 25).
Proof. split; [|split]; repeat eexists; vm_compute; reflexivity. Qed.

Print Assumptions C103_client.
Print Assumptions C103_read_timed.
Print Assumptions C103_real_path.
Print Assumptions C103_read_room.
Print Assumptions C103_timed_room.
Print Assumptions C103_children_room.
Print Assumptions C103_error_room.
Print Assumptions C103_path_room.
