(** * What a user of dro::IncludeTransform and dro::DefineTransformation
    expects: they are values

    No memory here.  An INCLUDE_TRANSFORM is four strings (file name, prefix,
    suffix, temperature flag; [None]: not given) and thirteen numbers; a
    DEFINE_TRANSFORMATION is a number, a title and a list of options. *)
From Verif Require Import CBase CppArraySpec CppTransformModel OwnSpec.

(** ** INCLUDE_TRANSFORM *)
Record itv := { v_strings : list (option (list Z)); v_numbers : list Z }.
Definition v_string (w : itv) (f : nat) : option (list Z) := nth f (v_strings w) None.
Definition it_blank : itv := {| v_strings := [None; None; None; None]; v_numbers := repeat 0%Z 13 |}.
(** A card gives some of the strings. *)
Definition with_strings (new old : list (option (list Z))) : list (option (list Z)) :=
  map (fun no => match fst no with Some s => Some s | None => snd no end) (combine new old).

Inductive ivstep (v : list (option itv)) : iop -> tseen -> list (option itv) -> Prop :=
| V_new : ivstep v INew TNothing (v ++ [Some it_blank])
| V_parse ss ns : length ss = 4 -> ivstep v (IParse ss ns) TNothing (v ++ [Some {| v_strings := ss; v_numbers := ns |}])
| V_move_new j w : nth_error v j = Some (Some w) -> ivstep v (IMoveNew j) TNothing (replace v j (Some it_blank) ++ [Some w])
| V_copy_new j w : nth_error v j = Some (Some w) -> ivstep v (ICopyNew j) TNothing (v ++ [Some w])
| V_move_to i j w x : nth_error v j = Some (Some w) -> nth_error v i = Some (Some x) -> i <> j ->
    ivstep v (IMoveTo i j) TNothing (replace (replace v i (Some w)) j (Some it_blank))
| V_copy_to i j w x : nth_error v j = Some (Some w) -> nth_error v i = Some (Some x) -> ivstep v (ICopyTo i j) TNothing (replace v i (Some w))
| V_card j w ss ns : nth_error v j = Some (Some w) -> length ss = 4 ->
    ivstep v (ICard j ss ns) TNothing (replace v j (Some {| v_strings := with_strings ss (v_strings w); v_numbers := ns |}))
| V_str j f w s : nth_error v j = Some (Some w) -> v_string w f = Some s -> ivstep v (IStr j f) (TStr s) v
| V_nums j w : nth_error v j = Some (Some w) -> ivstep v (INums j) (TNums (v_numbers w)) v
| V_destroy j w : nth_error v j = Some (Some w) -> ivstep v (IDestroy j) TNothing (replace v j None).

(** Whatever is copied has a file name. *)
Definition copies_have_names (v : list (option itv)) (o : iop) : Prop :=
  forall j w, (o = ICopyNew j \/ exists i, o = ICopyTo i j) -> nth_error v j = Some (Some w) -> v_string w FILE_NAME <> None.

(** Nothing that has a string is overwritten, and nothing is destroyed that
    has a temperature flag. *)
Definition it_no_overwrite (v : list (option itv)) (o : iop) : Prop :=
  (forall i j w, o = IMoveTo i j \/ o = ICopyTo i j -> nth_error v i = Some (Some w) -> v_strings w = [None; None; None; None]) /\
  (forall j ss ns w f, o = ICard j ss ns -> nth_error v j = Some (Some w) -> nth f ss None <> None -> v_string w f = None) /\
  (forall j w, o = IDestroy j -> nth_error v j = Some (Some w) -> v_string w FCTTEM = None).

(** ** DEFINE_TRANSFORMATION *)
Record dtv := { v_id : Z; v_title : option (list Z); v_options : list (list Z * list Z) }.
Definition dt_blank : dtv := {| v_id := 0; v_title := None; v_options := [] |}.
Definition seven (o : list Z * list Z) : Prop := length (snd o) = 7.

Inductive dvstep (v : list (option dtv)) : dop -> tseen -> list (option dtv) -> Prop :=
| W_new : dvstep v DNew TNothing (v ++ [Some dt_blank])
| W_parse id t os : Forall seven os -> dvstep v (DParse id t os) TNothing (v ++ [Some {| v_id := id; v_title := t; v_options := os |}])
| W_move_new j w : nth_error v j = Some (Some w) -> dvstep v (DMoveNew j) TNothing (replace v j (Some dt_blank) ++ [Some w])
| W_copy_new j w : nth_error v j = Some (Some w) -> dvstep v (DCopyNew j) TNothing (v ++ [Some w])
| W_move_to i j w x : nth_error v j = Some (Some w) -> nth_error v i = Some (Some x) -> i <> j ->
    dvstep v (DMoveTo i j) TNothing (replace (replace v i (Some w)) j (Some dt_blank))
| W_copy_to i j w x : nth_error v j = Some (Some w) -> nth_error v i = Some (Some x) -> dvstep v (DCopyTo i j) TNothing (replace v i (Some w))
| W_card j w n ps : nth_error v j = Some (Some w) -> length ps = 7 ->
    dvstep v (DCard j n ps) TNothing (replace v j (Some {| v_id := v_id w; v_title := v_title w; v_options := v_options w ++ [(n, ps)] |}))
| W_id j w : nth_error v j = Some (Some w) -> dvstep v (DId j) (TNums [v_id w]) v
| W_title j w t : nth_error v j = Some (Some w) -> v_title w = Some t -> dvstep v (DTitle j) (TStr t) v
| W_no_title j w : nth_error v j = Some (Some w) -> v_title w = None -> dvstep v (DTitle j) TThrown v
| W_option j k w n ps : nth_error v j = Some (Some w) -> nth_error (v_options w) k = Some (n, ps) -> dvstep v (DOption j k) (TOption n ps) v
| W_option_range j k w : nth_error v j = Some (Some w) -> length (v_options w) <= k -> dvstep v (DOption j k) TThrown v
| W_destroy j w : nth_error v j = Some (Some w) -> dvstep v (DDestroy j) TNothing (replace v j None).

(** A copied object has a title and options; an assigned one has a title if
    the target has one, and options if the target has some, and is another
    object (or has no options). *)
Definition copies_are_full (v : list (option dtv)) (o : dop) : Prop :=
  (forall j w, o = DCopyNew j -> nth_error v j = Some (Some w) -> v_title w <> None /\ v_options w <> []) /\
  (forall i j w x, o = DCopyTo i j -> nth_error v j = Some (Some w) -> nth_error v i = Some (Some x) ->
     (v_title w = None -> v_title x = None) /\ (v_options w = [] -> v_options x = []) /\ (i = j -> v_options w = [])).

(** Nothing that has a title or options is overwritten. *)
Definition dt_no_overwrite (v : list (option dtv)) (o : dop) : Prop :=
  forall i j x, o = DMoveTo i j \/ o = DCopyTo i j -> nth_error v i = Some (Some x) -> v_title x = None /\ v_options x = [].
