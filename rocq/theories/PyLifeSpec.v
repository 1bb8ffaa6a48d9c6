(** * What the objects stand for *)
From Verif Require Import CBase SearchSpec KeyTableModel PyLifeModel.

(** An object is a file's keywords, an array, or a part of one of them; [o] is
    the number of the object it was taken from. *)
Inductive pvalue :=
| VGone
| VKeywords (l : list keyword)
| VSlice (o : nat) (run : list keyword)
| VKeyword (o : nat) (k : keyword)
| VCard (o : nat) (t : list Z)
| VArray (l : list Z)
| VElement (o : nat) (z : Z).

Fixpoint replace {A} (l : list A) (i : nat) (x : A) : list A :=
  match l, i with [], _ => [] | _ :: t, O => x :: t | y :: t, S i => y :: replace t i x end.

(** The object it was taken from still exists. *)
Definition alive (v : list pvalue) (o : nat) : Prop :=
  match nth_error v o with Some (VKeywords _) | Some (VArray _) => True | _ => False end.

(** The keywords with a name in a table (C13: equal names are neighbours). *)
Definition named (l : list keyword) (name : list Z) (run : list keyword) : Prop :=
  exists pre post, l = pre ++ run ++ post /\ (forall k, In k pre \/ In k post -> kw_name k <> name) /\
    (forall k, In k run -> kw_name k = name) /\ run <> [] /\ (pre <> [] \/ length run = 1).

(** One step: objects before, what is seen, objects after. *)
Inductive vstep (v : list pvalue) : pop -> pseen -> list pvalue -> Prop :=
| L_parse l : vstep v (OParse l) SObject (v ++ [VKeywords l])
| L_array l : vstep v (OArray l) SObject (v ++ [VArray l])
| L_name j l name run : nth_error v j = Some (VKeywords l) -> names_sorted (map kw_name l) -> is_cstr name -> named l name run ->
    vstep v (OName j name) SObject (v ++ [VSlice j run])
| L_slice j o run i k : nth_error v j = Some (VSlice o run) -> nth_error run i = Some k -> vstep v (OAt j i) SObject (v ++ [VKeyword o k])
| L_slice_end j o run i : nth_error v j = Some (VSlice o run) -> nth_error run i = None -> vstep v (OAt j i) SError v
| L_keyword j o k i t : nth_error v j = Some (VKeyword o k) -> alive v o -> nth_error (kw_cards k) i = Some t -> vstep v (OAt j i) SObject (v ++ [VCard o t])
| L_keyword_end j o k i : nth_error v j = Some (VKeyword o k) -> alive v o -> nth_error (kw_cards k) i = None -> vstep v (OAt j i) SError v
| L_element j l i z : nth_error v j = Some (VArray l) -> nth_error l i = Some z -> vstep v (OAt j i) SObject (v ++ [VElement j z])
| L_element_end j l i : nth_error v j = Some (VArray l) -> nth_error l i = None -> vstep v (OAt j i) SError v
| L_text j o t : nth_error v j = Some (VCard o t) -> alive v o -> vstep v (OUse j) (SText t) v
| L_len j o k : nth_error v j = Some (VKeyword o k) -> alive v o -> vstep v (OUse j) (SLen (length (kw_cards k))) v
| L_value j o z : nth_error v j = Some (VElement o z) -> alive v o -> vstep v (OUse j) (SValue z) v
| L_drop j x : nth_error v j = Some x -> x <> VGone -> vstep v (ODrop j) SNone (replace v j VGone).

Inductive vruns : list pvalue -> list pop -> list pseen -> list pvalue -> Prop :=
| L_done v : vruns v [] [] v
| L_step v o r v' t rs v'' : vstep v o r v' -> vruns v' t rs v'' -> vruns v (o :: t) (r :: rs) v''.
