(** * Vocabulary for paths (independent of the model) *)
From Verif Require Import CBase PathModel.

(** Split at every '/', keeping empty pieces. *)
Fixpoint split_sep (s : list Z) : list (list Z) :=
  match s with
  | [] => [[]]
  | c :: t =>
    if (c =? 47)%Z then [] :: split_sep t
    else match split_sep t with
         | [] => [[c]]
         | e :: es => (c :: e) :: es
         end
  end.

Definition nonempty (e : list Z) : bool := match e with [] => false | _ => true end.

(** The elements of a path: the non-empty pieces between separators. *)
Definition elements (s : list Z) : list (list Z) := filter nonempty (split_sep s).

Definition absolute (s : list Z) : Prop := exists t, s = 47%Z :: t.
Definition relative (s : list Z) : Prop := exists c t, s = c :: t /\ c <> 47%Z.

(** The text a path view shows. *)
Definition view_text (pv : path_view) : list Z :=
  firstn (pv_end pv - pv_start pv + 1) (skipn (pv_start pv) (pv_string pv)).

(** The API usage pattern: create a view, then advance until it says stop;
    the result lists the texts seen. *)
Fixpoint visit_rest (n : nat) (pv : path_view) : res (list (list Z)) :=
  match n with
  | O => OOF
  | S n' =>
    match path_view_advance pv with
    | OK (pv', true) =>
      match visit_rest n' pv' with OK l => OK (view_text pv' :: l) | UB => UB | OOF => OOF end
    | OK (_, false) => OK []
    | UB => UB
    | OOF => OOF
    end
  end.
Definition visit (s : list Z) : res (list (list Z)) :=
  match path_view_new s with
  | OK pv => match visit_rest (S (length s)) pv with
             | OK l => OK (view_text pv :: l) | UB => UB | OOF => OOF end
  | UB => UB
  | OOF => OOF
  end.

(** Views a client can hold: created on a string, then advanced. *)
Inductive view_on (s : list Z) : path_view -> Prop :=
| view_first : forall pv, path_view_new s = OK pv -> view_on s pv
| view_next : forall pv pv', view_on s pv -> path_view_advance pv = OK (pv', true) -> view_on s pv'.

(** Strings of 7-bit characters. *)
Definition ascii_str (s : list Z) : Prop := Forall (fun b => (0 < b < 128)%Z) s.

(** A string of separators only. *)
Definition seps (e : list Z) : Prop := forallb (fun c => (c =? 47)%Z) e = true.
