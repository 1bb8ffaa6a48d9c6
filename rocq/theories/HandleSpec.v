(** * What a user of dro::D3plot and dro::Binout expects of handles, messages
    and names

    No memory here.  A handle has a message if its last read failed; a Binout
    has a directory.  A text is owned ([VText]), part of the program
    ([VLit]), or lent by a handle ([VView], with the handle that lends it, or
    [None] once that handle was used again or is gone). *)
From Verif Require Import CBase CppArraySpec HandleModel OwnSpec.

Inductive lent := OfError | OfName.
Inductive hval :=
| VPlot (err : option (list Z))
| VPlotEmpty                                               (* moved from *)
| VBin (files : nat) (names : list (list Z)) (err : option (list Z))
| VText (t : list Z)
| VLit (t : list Z)
| VView (k : lent) (owner : option nat) (t : list Z)
| VMoved.                                                  (* a text that was moved from *)

(** The names in a directory, parents before their children. *)
Fixpoint tree_names (t : tree) : list (list Z) :=
  match t with TFile n => [n] | TFolder n ks => n :: flat_map tree_names ks end.

(** Texts that may be read. *)
Definition text_of (w : hval) : option (list Z) :=
  match w with VText t => Some t | VLit t => Some t | VView _ (Some _) t => Some t | _ => None end.

Definition moved (w : hval) : hval :=
  match w with VPlot _ | VPlotEmpty => VPlotEmpty | VBin _ _ _ => VBin 0 [] None | _ => VMoved end.
Definition same_kind (w x : hval) : Prop :=
  match w, x with
  | (VPlot _ | VPlotEmpty), (VPlot _ | VPlotEmpty) => True
  | VBin _ _ _, VBin _ _ _ => True
  | (VText _ | VLit _ | VView _ _ _ | VMoved), (VText _ | VLit _ | VView _ _ _ | VMoved) => True
  | _, _ => False
  end.

(** A read of handle [j] ends the message it lent before ... *)
Definition forget_err (j : nat) (w : hval) : hval :=
  match w with VView OfError (Some k) t => if k =? j then VView OfError None t else w | _ => w end.
(** ... its destruction ends everything it lent ... *)
Definition forget (j : nat) (w : hval) : hval :=
  match w with VView K (Some k) t => if k =? j then VView K None t else w | _ => w end.
(** ... and a move to [i] moves what it lent. *)
Definition pass (j i : nat) (w : hval) : hval :=
  match w with VView K (Some k) t => VView K (Some (if k =? j then i else k)) t | _ => w end.
Definition everywhere (f : hval -> hval) (v : list (option hval)) : list (option hval) := map (option_map f) v.

Inductive hvstep (v : list (option hval)) : hop -> hseen -> list (option hval) -> Prop :=
| H_open_plot n bf : hvstep v (OpenPlot n bf None) HDone (v ++ [Some (VPlot None)])
| H_open_plot_fails n bf m : hvstep v (OpenPlot n bf (Some m)) HThrown (v ++ [Some (VText m)])
| H_open_bin ts n : hvstep v (OpenBin ts n None) HDone (v ++ [Some (VBin n (flat_map tree_names ts) None)])
| H_open_bin_fails ts n m : hvstep v (OpenBin ts n (Some m)) HThrown (v ++ [Some (VText m)])
| H_read_plot j c c32 e : nth_error v j = Some (Some (VPlot e)) ->
    hvstep v (Call j c c32 None) HDone (replace (everywhere (forget_err j) v) j (Some (VPlot None)))
| H_read_plot_fails j c c32 e m : nth_error v j = Some (Some (VPlot e)) ->
    hvstep v (Call j c c32 (Some m)) HThrown (replace (everywhere (forget_err j) v) j (Some (VPlot (Some m))) ++ [Some (VView OfError (Some j) m)])
| H_read_bin j c c32 n ns e : nth_error v j = Some (Some (VBin n ns e)) ->
    hvstep v (Call j c c32 None) HDone (replace (everywhere (forget_err j) v) j (Some (VBin n ns None)))
| H_read_bin_fails j c c32 n ns e m : nth_error v j = Some (Some (VBin n ns e)) ->
    hvstep v (Call j c c32 (Some m)) HThrown (replace (everywhere (forget_err j) v) j (Some (VBin n ns (Some m))) ++ [Some (VView OfError (Some j) m)])
| H_ask j n ns e : nth_error v j = Some (Some (VBin n ns e)) -> hvstep v (Ask j None) HDone v
| H_ask_fails j n ns e m : nth_error v j = Some (Some (VBin n ns e)) -> hvstep v (Ask j (Some m)) HThrown (v ++ [Some (VText m)])
| H_literal j n ns e t : nth_error v j = Some (Some (VBin n ns e)) -> hvstep v (Literal j t) HThrown (v ++ [Some (VLit t)])
| H_child j n ns e k t : nth_error v j = Some (Some (VBin n ns e)) -> nth_error ns k = Some t ->
    hvstep v (Child j k) HDone (v ++ [Some (VView OfName (Some j) t)])
| H_what j w t : nth_error v j = Some (Some w) -> text_of w = Some t -> hvstep v (What j) (HText t) v
| H_copy j w t : nth_error v j = Some (Some w) -> text_of w = Some t -> hvstep v (CopyStr j) HDone (v ++ [Some (VText t)])
| H_move_new j w : nth_error v j = Some (Some w) ->
    hvstep v (MoveNew j) HDone (everywhere (pass j (length v)) (replace v j (Some (moved w)) ++ [Some w]))
| H_move_to i j w x : nth_error v j = Some (Some w) -> nth_error v i = Some (Some x) -> i <> j -> same_kind w x ->
    hvstep v (MoveTo i j) HDone (everywhere (pass j i) (replace (replace (everywhere (forget i) v) i (Some w)) j (Some (moved w))))
| H_destroy j w : nth_error v j = Some (Some w) -> hvstep v (Destroy j) HDone (replace (everywhere (forget j) v) j None).

(** Only what was moved from is assigned to. *)
Definition no_overwrite (v : list (option hval)) (o : hop) : Prop :=
  forall i j x, o = MoveTo i j -> nth_error v i = Some (Some x) ->
  x = VPlotEmpty \/ x = VBin 0 [] None \/ x = VMoved \/ (exists t, x = VLit t) \/ (exists k w t, x = VView k w t).

(** How often a program opens a Binout that has files (successfully or not). *)
Definition binouts (prog : list hop) : nat :=
  length (filter (fun o => match o with OpenBin _ (S _) _ => true | _ => false end) prog).
