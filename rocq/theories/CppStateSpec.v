(** * What a user of element states in C++ expects: they are values

    No memory here.  An array of shells or thick shells is a list of elements, of
    which the history variables of the mid, inner and outer surface and of the
    additional integration points are looked at, in this order; a mean surface and an
    array of numbers are lists of numbers.  An object is [None] once it is
    destroyed. *)
From Verif Require Import CBase BinModel D3BufModel D3BufSpec D3Model D3Spec D3ReadModel D3ReadSpec D3ElemModel D3ElemSpec CppArrayModel CppArraySpec CppStateModel.
Open Scope Z_scope.

Definition element : Type := list (list Z).
Inductive cvalue := VElems (l : list element) | VSurf (l : list Z) | VNums (l : list Z).
Definition cvalues : Type := list (option cvalue).

(** What there is to read: the element data of a state, no elements, nothing because
    the state does not exist or its elements do not fit. *)
Record source : Type := { data_of : plot -> nat -> list element -> Prop; nothing_of : plot -> nat -> Prop; broken : plot -> nat -> Prop }.

Definition shell_source : source := {|
  data_of pl st c := exists b titles states p is, opened b titles states pl /\ nth_error states st = Some p /\ istrn_of b = Some is /\ 0 < cval b NEL4 /\ (is = 0 \/ is = 1) /\ 3 <= ips_of b /\ shell_words b is = cval b NV2D /\
    c = each (cval b NEL4) (fun i => map v_history (w_ips (shell_spec b is (p + s_shell b + i * cval b NV2D))));
  nothing_of pl st := exists b titles states, opened b titles states pl /\ cval b NEL4 = 0;
  broken pl st := exists b titles states, opened b titles states pl /\ 0 < cval b NEL4 /\
    ((length states <= st)%nat \/ exists p is, nth_error states st = Some p /\ istrn_of b = Some is /\ shell_words b is < cval b NV2D) |}.
Definition thick_source : source := {|
  data_of pl st c := exists b titles states p is, opened b titles states pl /\ nth_error states st = Some p /\ istrn_of b = Some is /\ 0 < cval b NELT /\ (ips_of b = 3 \/ (3 <= ips_of b /\ cval b NEIPS = 0)) /\ thick_words b is = cval b NV3DT /\
    c = each (cval b NELT) (fun i => map v_history (x_ips (thick_spec b is (p + s_tshell b + i * cval b NV3DT))));
  nothing_of pl st := exists b titles states, opened b titles states pl /\ cval b NELT = 0;
  broken pl st := exists b titles states, opened b titles states pl /\ 0 < cval b NELT /\
    ((length states <= st)%nat \/ exists p is, nth_error states st = Some p /\ istrn_of b = Some is /\ (ips_of b = 3 \/ (3 <= ips_of b /\ cval b NEIPS = 0)) /\ thick_words b is < cval b NV3DT) |}.

Section Source.
(** [lim]: the numbers get_add_ip_history_variables can be called with. *)
Variables (src : source) (lim : Z) (fadd fdiv : Z -> Z -> Z) (of_int : Z -> Z).

(** The mean of every history variable over the integration points. *)
Definition means (x : element) : list Z := map (fun n => mean_of fadd fdiv of_int (map (fun l => nth n l 0) x)) (seq 0 (length (hd [] x))).

Inductive evstep (v : cvalues) : eop -> seen -> cvalues -> Prop :=
| V_read pl st c : data_of src pl st c -> evstep v (ERead pl st) Nothing (v ++ [Some (VElems c)])
| V_read_none pl st : nothing_of src pl st -> evstep v (ERead pl st) Nothing (v ++ [Some (VElems [])])
| V_read_broken pl st : broken src pl st -> evstep v (ERead pl st) Thrown v
| V_move_new j c : nth_error v j = Some (Some (VElems c)) -> evstep v (EMoveNew j) Nothing (replace v j (Some (VElems [])) ++ [Some (VElems c)])
| V_copy_new j c : nth_error v j = Some (Some (VElems c)) -> evstep v (ECopyNew j) Nothing (v ++ [Some (VElems c)])
| V_move_to i j c d : nth_error v j = Some (Some (VElems c)) -> nth_error v i = Some (Some (VElems d)) -> i <> j ->
    evstep v (EMoveTo i j) Nothing (replace (replace v i (Some (VElems c))) j (Some (VElems [])))
| V_copy_to i j c d : nth_error v j = Some (Some (VElems c)) -> nth_error v i = Some (Some (VElems d)) -> evstep v (ECopyTo i j) Nothing (replace v i (Some (VElems c)))
| V_size j c : nth_error v j = Some (Some (VElems c)) -> evstep v (ESize j) (Size (length c)) v
| V_hist j i l n c x lv y : nth_error v j = Some (Some (VElems c)) -> nth_error c i = Some x -> (l <= 2)%nat -> nth_error x l = Some lv -> nth_error lv n = Some y -> evstep v (EHist j i l n) (Value y) v
| V_hist_none j i l n c x lv : nth_error v j = Some (Some (VElems c)) -> nth_error c i = Some x -> (l <= 2)%nat -> nth_error x l = Some lv -> (length lv <= n)%nat -> evstep v (EHist j i l n) Thrown v
| V_hist_range j i l n c : nth_error v j = Some (Some (VElems c)) -> (length c <= i)%nat -> evstep v (EHist j i l n) Thrown v
| V_add j i l n c x lv y : nth_error v j = Some (Some (VElems c)) -> nth_error c i = Some x -> 0 <= l < lim -> nth_error x (3 + Z.to_nat l) = Some lv -> nth_error lv n = Some y -> evstep v (EAddHist j i l n) (Value y) v
| V_add_none j i l n c x lv : nth_error v j = Some (Some (VElems c)) -> nth_error c i = Some x -> 0 <= l < lim -> nth_error x (3 + Z.to_nat l) = Some lv -> (length lv <= n)%nat -> evstep v (EAddHist j i l n) Thrown v
| V_add_outside j i l n c x : nth_error v j = Some (Some (VElems c)) -> nth_error c i = Some x -> 0 <= l < lim -> (length x <= 3 + Z.to_nat l)%nat -> evstep v (EAddHist j i l n) Thrown v
| V_add_range j i l n c : nth_error v j = Some (Some (VElems c)) -> (length c <= i)%nat -> evstep v (EAddHist j i l n) Thrown v
| V_mean j i c x : nth_error v j = Some (Some (VElems c)) -> nth_error c i = Some x -> evstep v (EMean j i) Nothing (v ++ [Some (VSurf (means x))])
| V_mean_hist j i c x : nth_error v j = Some (Some (VElems c)) -> nth_error c i = Some x -> evstep v (EMeanHist j i) Nothing (v ++ [Some (VNums (means x))])
| V_mean_range j i c : nth_error v j = Some (Some (VElems c)) -> (length c <= i)%nat -> evstep v (EMean j i) Thrown v
| V_mean_hist_range j i c : nth_error v j = Some (Some (VElems c)) -> (length c <= i)%nat -> evstep v (EMeanHist j i) Thrown v
| V_copy_surf j l : nth_error v j = Some (Some (VSurf l)) -> evstep v (ECopySurf j) Nothing (v ++ [Some (VSurf l)])
| V_surf j n l y : nth_error v j = Some (Some (VSurf l)) -> nth_error l n = Some y -> evstep v (ESurf j n) (Value y) v
| V_num j n l y : nth_error v j = Some (Some (VNums l)) -> nth_error l n = Some y -> evstep v (ENum j n) (Value y) v
| V_num_range j n l : nth_error v j = Some (Some (VNums l)) -> (length l <= n)%nat -> evstep v (ENum j n) Thrown v
| V_destroy j x : nth_error v j = Some (Some x) -> evstep v (EDestroy j) Nothing (replace v j None).

(** A run in which [P] holds of every operation at the point where it is executed. *)
Inductive evrun (P : cvalues -> eop -> Prop) : cvalues -> list eop -> list seen -> cvalues -> Prop :=
| VR_done v : evrun P v [] [] v
| VR_step v o r v' t rs v'' : P v o -> evstep v o r v' -> evrun P v' t rs v'' -> evrun P v (o :: t) (r :: rs) v''.

(** It copies only arrays whose elements have neither history variables nor additional
    integration points, and at least one element, and no array to itself; only surfaces
    without history variables. *)
Definition plain (c : list element) : Prop := c <> [] /\ forall x, In x c -> x = [[]; []; []].
Definition copies_fit (v : cvalues) (o : eop) : Prop :=
  (forall j c, o = ECopyNew j \/ (exists i, o = ECopyTo i j) -> nth_error v j = Some (Some (VElems c)) -> plain c) /\
  (forall i, o <> ECopyTo i i) /\
  (forall j l, o = ECopySurf j -> nth_error v j = Some (Some (VSurf l)) -> l = []).
(** It overwrites only empty arrays. *)
Definition overwrites_nothing (v : cvalues) (o : eop) : Prop :=
  forall i j c, o = EMoveTo i j \/ o = ECopyTo i j -> nth_error v i = Some (Some (VElems c)) -> c = [].
(** It reads only elements with history variables and a number of integration points
    other than three. *)
Definition reads_full (o : eop) : Prop :=
  forall pl st c x, o = ERead pl st -> data_of src pl st c -> In x c -> length x <> 3%nat /\ hd [] x <> [].
End Source.
