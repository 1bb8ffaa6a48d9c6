(** * Vocabulary for strings *)
From Verif Require Import CBase StringModel.

(** Append operations of a client and the text each contributes. *)
Inductive sb_op :=
| AppStr (s : cstr)
| AppChar (c : Z)
| AppLen (mem : list Z) (l : nat).

Definition op_text (o : sb_op) : list Z :=
  match o with AppStr s => s | AppChar c => [c] | AppLen mem l => firstn l mem end.

(** The caller of [append_len] must own [l] readable bytes. *)
Definition op_ok (o : sb_op) : Prop :=
  match o with AppLen mem l => l <= length mem | _ => True end.

Definition sb_apply (b : string_builder) (o : sb_op) : res string_builder :=
  match o with
  | AppStr s => string_builder_append b s
  | AppChar c => string_builder_append_char b c
  | AppLen mem l => string_builder_append_len b mem l
  end.

Fixpoint sb_run (b : string_builder) (ops : list sb_op) : res string_builder :=
  match ops with
  | [] => OK b
  | o :: t => do b' <- sb_apply b o; sb_run b' t
  end.

(** The contiguous memory an extra string stands for. *)
Definition es_mem (e : extra_string) : list Z := es_buffer e ++ es_extra e.

(** [e] holds the C string [s]. *)
Definition es_holds (e : extra_string) (s : cstr) : Prop :=
  length (es_buffer e) = 82 /\ is_cstr s /\ exists rest, es_mem e = s ++ 0%Z :: rest.
