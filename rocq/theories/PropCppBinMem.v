(** * Property C105: Binout's readers return objects that own everything, or throw *)
From Coq Require Import Permutation.
From Verif Require Import CBase PathModel BinDirModel BinDirSpec BinModel TimedModel PropTimed CppArrayModel ReadMemSpec ReadMemProofs BinMemModel BinMemSpec BinMemProofs PropBinMem PyBinoutModel CppReadModel CppBinMemModel CppBinMemSpec CppBinMemProofs.
Open Scope nat_scope.

Theorem C105_read : forall h0 h e others b path t, holds h0 h e others ->
  alike (cpp_read b path t) (cpp_read_mem h e b path t) (cpp_gives_array h0 others t).
Proof. exact cpp_read_ok. Qed.
Theorem C105_read_timed : forall h0 h e others b variable t, holds h0 h e others ->
  alike (cpp_read_timed b variable t) (cpp_read_timed_mem h e b variable t) (cpp_gives_rows h0 others t).
Proof. exact cpp_read_timed_ok. Qed.
Theorem C105_type_id : forall h0 h e others b path, holds h0 h e others ->
  alike (get_type_id b path) (cpp_type_id_mem h e b path) (cpp_gives_type h0 others).
Proof. exact cpp_type_id_ok. Qed.
Theorem C105_children : forall h0 h e others b path, holds h0 h e others ->
  alike (cpp_get_children b path) (cpp_children_mem h b path) (cpp_gives_value h0 e others).
Proof. exact cpp_children_ok. Qed.
Theorem C105_real_path : forall h0 h e others b simple, holds h0 h e others ->
  alike (cpp_simple_path b simple) (cpp_real_path_mem h b simple) (cpp_gives_value h0 e others).
Proof. exact cpp_real_path_ok. Qed.

(** ** Non-vacuity: the handle of C103, whose variable /m/part/x has two steps of two bytes *)
Example C105_timed_case : exists h, cpp_read_timed_mem [] None ex_handle (bs "/m/part/x") 5 =
    OK (h, None, Value (PRows 5 2 [[4; 5]; [9; 10]]%Z, [Some {| a_data := Some (1, 0); a_size := 2; a_del := true |}; Some {| a_data := Some (1, 2); a_size := 2; a_del := false |}])) /\
  nth_error h 0 = Some None /\ holds [] [] None [].
Proof. eexists. split; [vm_compute; reflexivity|]. split; [reflexivity|]. apply -> leaves_none. apply leaves_refl. Qed.
(** A read that fails; then one that succeeds: the exception's text is gone. *)
Definition wrong_type : cstr := bs """/m/d000001/part/x"" is of type UINT8 instead of UINT16".
Example C105_error_case : exists h1 h2, cpp_read_mem [] None ex_handle (bs "/m/d000001/part/x") 6 = OK (h1, Some (0, 0), Exception wrong_type {| a_data := Some (0, 0); a_size := length wrong_type; a_del := false |}) /\
  cpp_read_mem h1 (Some (0, 0)) ex_handle (bs "/m/d000001/part/x") 5 = OK (h2, None, Value (PArray 5 2 [4; 5]%Z, {| a_data := Some (1, 0); a_size := 2; a_del := true |})) /\ nth_error h2 0 = Some None.
Proof. eexists _, _. split; [vm_compute; reflexivity|]. split; [vm_compute; reflexivity|]. reflexivity. Qed.
Example C105_children_case : (exists h, cpp_children_mem [] ex_handle (bs "/m") = OK (h, Value [bs "d000001"; bs "d000002"]) /\ h = [None]) /\
  exists h s, cpp_children_mem [] ex_handle (bs "/n") = OK (h, Exception (bs "The path ""/n"" does not exist") s) /\ a_data s = Some (0, 0) /\ a_del s = true.
Proof. split; [eexists; split; vm_compute; reflexivity|]. eexists _, _. split; [vm_compute; reflexivity|]. split; reflexivity. Qed.
Example C105_real_case : exists h, cpp_real_path_mem [] ex_handle (bs "m/part/x") = OK (h, Value (bs "/m/part/x", 5%Z, true)) /\ forall k c, nth_error h k <> Some (Some c).
Proof.
  eexists. split; [vm_compute; reflexivity|]. intros [|[|[|[|[|[|[|k]]]]]]] c; cbn; try discriminate; destruct k; discriminate.
Qed.

Print Assumptions C105_read.
Print Assumptions C105_read_timed.
Print Assumptions C105_type_id.
Print Assumptions C105_children.
Print Assumptions C105_real_path.
