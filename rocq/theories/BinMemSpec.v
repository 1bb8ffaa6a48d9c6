(** * What the readers of a binout may do to memory *)
From Verif Require Import CBase BinDirModel BinModel TimedModel CppArrayModel ReadMemSpec BinMemModel.
Open Scope nat_scope.

(** [leaves h0 h ps] (ReadMemSpec.v): since [h0] exactly the blocks of [ps] have been
    left.  [others]: the arrays and strings the client holds.  Before a call there is
    the error string [e] besides them, after it the new one, which is NULL exactly if
    there is no error, and the result, which is NULL exactly if there is none. *)
Definition holds (h0 h : heap) (e : option ptr) (others : list (option ptr)) : Prop := leaves h0 h (e :: others).
Definition null_iff {A} (p : option ptr) (v : option A) : Prop := p = None <-> v = None.

Definition gives_type (h0 : heap) (others : list (option ptr)) (r : Z * option cstr) (m : heap * option ptr * (Z * option cstr)) : Prop :=
  let '(h, e, r') := m in r' = r /\ null_iff e (snd r) /\ holds h0 h e others.
Definition gives_children (h0 : heap) (e : option ptr) (others : list (option ptr)) (r : option (list cstr)) (m : heap * option (list cstr) * option ptr) : Prop :=
  let '(h, r', p) := m in r' = r /\ null_iff p r /\ holds h0 h e (p :: others).
Definition gives_read (h0 : heap) (others : list (option ptr)) (r : read_result) (m : heap * option ptr * read_result * option ptr) : Prop :=
  let '(h, e, r', p) := m in r' = r /\ null_iff e (r_error r) /\ null_iff p (r_data r) /\ holds h0 h e (p :: others).
Definition gives_timed (h0 : heap) (others : list (option ptr)) (r : timed_result) (m : heap * option ptr * timed_result * option ptr) : Prop :=
  let '(h, e, r', p) := m in r' = r /\ null_iff e (t_error r) /\ null_iff p (t_data r) /\ holds h0 h e (p :: others).
Definition gives_real (h0 : heap) (e : option ptr) (others : list (option ptr)) (r : simple_result) (m : heap * simple_result * option ptr) : Prop :=
  let '(h, r', p) := m in r' = r /\ null_iff p r /\ holds h0 h e (p :: others).

(** A client's calls that are all defined: what is freed is the result of an earlier
    call. *)
Fixpoint calls_ok (b : binout) (got : nat) (ks : list bin_call) : Prop :=
  match ks with
  | [] => True
  | BTypeId path :: r => (exists v, get_type_id b path = OK v) /\ calls_ok b (S got) r
  | BChildren path :: r => (exists v, binout_get_children b path = OK v) /\ calls_ok b (S got) r
  | BRead path t :: r => (exists v, binout_read b 0 path t = OK v) /\ calls_ok b (S got) r
  | BReadTimed path t :: r => (exists v, read_timed b path 0 0 t = OK v) /\ calls_ok b (S got) r
  | BReal path :: r => (exists v, simple_path_to_real b path = OK v) /\ calls_ok b (S got) r
  | BOpenError :: r => calls_ok b (S got) r
  | BFree n :: r => n < got /\ calls_ok b got r
  end.
(** The block of [e] is as long as the text [m] with its terminator. *)
Definition holds_text (h : heap) (e : option ptr) (m : cstr) : Prop := exists q, e = Some q /\ room h q (length m + 1).
