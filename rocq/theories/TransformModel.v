(** * Model of src/include_transform.c *)
From Verif Require Import CBase StringModel CardModel.

(** key.h:33 [DEFAULT_VALUE_WIDTH] *)
Definition W : nat := 10.

(** include_transform.h:49-86 [include_transform_t]; a [char *] is [None]
    (NULL) or the bytes of the allocated buffer. *)
Record include_transform (A : farith) := mkIT {
  file_name : option (list Z);
  idnoff : Z; ideoff : Z; idpoff : Z; idmoff : Z; idsoff : Z; idfoff : Z; iddoff : Z;
  idroff : Z; prefix : option (list Z); suffix : option (list Z);
  fctmas : F A; fcttim : F A; fctlen : F A; fcttem : option (list Z); incout1 : Z;
  tranid : Z }.
Arguments mkIT {A}. Arguments file_name {A}. Arguments idnoff {A}. Arguments ideoff {A}. Arguments idpoff {A}.
Arguments idmoff {A}. Arguments idsoff {A}. Arguments idfoff {A}. Arguments iddoff {A}. Arguments idroff {A}.
Arguments prefix {A}. Arguments suffix {A}. Arguments fctmas {A}. Arguments fcttim {A}. Arguments fctlen {A}.
Arguments fcttem {A}. Arguments incout1 {A}. Arguments tranid {A}.

Section Model.
Context (A : farith).
(** The conversion [(int64_t)x]; undefined behaviour outside of the range. *)
Context (ftoi : F A -> res Z).

(** include_transform.c:243-261 [_card_try_parse_int]; errno is ignored, a
    failing [card_parse_int] returns 0.  Result: the new [*value]. *)
Definition try_parse_int (s : cstr) (cur : nat) (value : Z) : res Z :=
  do ty <- card_parse_get_type_width s cur W;
  match ty with
  | CARD_INT => do o <- card_parse_int_width s cur W; OK (match o with Some v => v | None => 0%Z end)
  | CARD_FLOAT => do '(v, _) <- card_parse_float_width A s cur W; ftoi v
  | CARD_STRING => OK value
  end.

(** include_transform.c:263-277 [_card_try_parse_float64] *)
Definition try_parse_float (s : cstr) (cur : nat) (value : F A) : res (F A) :=
  do ty <- card_parse_get_type_width s cur W;
  match ty with
  | CARD_INT | CARD_FLOAT => do '(v, _) <- card_parse_float_width A s cur W; OK v
  | CARD_STRING => OK value
  end.

(** include_transform.c:76-81 and similar loops: [while (!done && value <= end)
    { try_parse(value); next; value++; }] over the [length mem] consecutive
    members starting at index [i]; result: the members and [current_index]. *)
Fixpoint parse_members {T} (try : cstr -> nat -> T -> res T) (fuel : nat) (s : cstr) (cur i : nat) (mem : list T)
  : res (list T * nat) :=
  match fuel with
  | O => OOF
  | S f =>
    do d <- card_parse_done s cur;
    if negb d && (i <? length mem) then
      do x <- aget mem i;
      do v <- try s cur x;
      do mem <- aset mem i v;
      do cur <- card_parse_next_width s cur W;
      parse_members try f s cur (i + 1) mem
    else OK (mem, cur)
  end.

(** include_transform.c:35-50: the default values. *)
Definition it_default : include_transform A :=
  mkIT None 0 0 0 0 0 0 0 0 None None (fofz A 1) (fofz A 1) (fofz A 1) None 0 0.

Definition set_file_name (it : include_transform A) v :=
  mkIT v (idnoff it) (ideoff it) (idpoff it) (idmoff it) (idsoff it) (idfoff it) (iddoff it) (idroff it) (prefix it)
    (suffix it) (fctmas it) (fcttim it) (fctlen it) (fcttem it) (incout1 it) (tranid it).
Definition set_card2 (it : include_transform A) r p x :=
  mkIT (file_name it) (idnoff it) (ideoff it) (idpoff it) (idmoff it) (idsoff it) (idfoff it) (iddoff it) r p
    x (fctmas it) (fcttim it) (fctlen it) (fcttem it) (incout1 it) (tranid it).
Definition set_tem (it : include_transform A) v :=
  mkIT (file_name it) (idnoff it) (ideoff it) (idpoff it) (idmoff it) (idsoff it) (idfoff it) (iddoff it) (idroff it)
    (prefix it) (suffix it) (fctmas it) (fcttim it) (fctlen it) v (incout1 it) (tranid it).
Definition set_incout1 (it : include_transform A) v :=
  mkIT (file_name it) (idnoff it) (ideoff it) (idpoff it) (idmoff it) (idsoff it) (idfoff it) (iddoff it) (idroff it)
    (prefix it) (suffix it) (fctmas it) (fcttim it) (fctlen it) (fcttem it) v (tranid it).
Definition set_tranid (it : include_transform A) v :=
  mkIT (file_name it) (idnoff it) (ideoff it) (idpoff it) (idmoff it) (idsoff it) (idfoff it) (iddoff it) (idroff it)
    (prefix it) (suffix it) (fctmas it) (fcttim it) (fctlen it) (fcttem it) (incout1 it) v.
(** The consecutive members [&it->idnoff .. &it->iddoff] and
    [&it->fctmas .. &it->fctlen] seen as arrays. *)
Definition offsets (it : include_transform A) : list Z :=
  [idnoff it; ideoff it; idpoff it; idmoff it; idsoff it; idfoff it; iddoff it].
Definition set_offsets (it : include_transform A) (l : list Z) : res (include_transform A) :=
  match l with
  | [a; b; c; d; e; f; g] =>
    OK (mkIT (file_name it) a b c d e f g (idroff it) (prefix it) (suffix it) (fctmas it) (fcttim it) (fctlen it)
          (fcttem it) (incout1 it) (tranid it))
  | _ => UB
  end.
Definition factors (it : include_transform A) : list (F A) := [fctmas it; fcttim it; fctlen it].
Definition set_factors (it : include_transform A) (l : list (F A)) : res (include_transform A) :=
  match l with
  | [a; b; c] =>
    OK (mkIT (file_name it) (idnoff it) (ideoff it) (idpoff it) (idmoff it) (idsoff it) (idfoff it) (iddoff it)
          (idroff it) (prefix it) (suffix it) a b c (fcttem it) (incout1 it) (tranid it))
  | _ => UB
  end.

(** include_transform.c:66-133 [key_parse_include_transform_card] *)
Definition include_transform_card (it : include_transform A) (s : cstr) (card_index : nat) : res (include_transform A) :=
  match card_index with
  | 0 => do n <- card_parse_whole s; OK (set_file_name it (Some n))
  | 1 =>
    do '(l, _) <- parse_members try_parse_int FUEL s card_parse_begin 0 (offsets it);
    set_offsets it l
  | 2 =>
    let cur := card_parse_begin in
    do d <- card_parse_done s cur;
    if d then OK it else
    do r <- try_parse_int s cur (idroff it);
    let it := set_card2 it r (prefix it) (suffix it) in
    do cur <- card_parse_next_width s cur W;
    do d <- card_parse_done s cur;
    if d then OK it else
    do cur <- card_parse_next_width s cur W;
    do d <- card_parse_done s cur;
    if d then OK it else
    do p <- card_parse_string_width s cur W;
    let it := set_card2 it r (Some p) (suffix it) in
    do cur <- card_parse_next_width s cur W;
    do d <- card_parse_done s cur;
    if d then OK it else
    do x <- card_parse_string_width s cur W;
    OK (set_card2 it r (Some p) (Some x))
  | 3 =>
    do '(l, cur) <- parse_members try_parse_float FUEL s card_parse_begin 0 (factors it);
    do it <- set_factors it l;
    do d <- card_parse_done s cur;
    if d then OK it else
    do t <- card_parse_string_width s cur W;
    let it := set_tem it (Some t) in
    do cur <- card_parse_next_width s cur W;
    do d <- card_parse_done s cur;
    if d then OK it else
    do v <- try_parse_int s cur (incout1 it);
    OK (set_incout1 it v)
  | 4 =>
    let cur := card_parse_begin in
    do d <- card_parse_done s cur;
    if d then OK it else
    do v <- try_parse_int s cur (tranid it);
    OK (set_tranid it v)
  | _ => OK it
  end.

(** include_transform.c:32-62 [key_parse_include_transform]: the loop over the
    cards [i], [i+1], ... *)
Fixpoint it_cards (it : include_transform A) (cards : list cstr) (i : nat) : res (include_transform A) :=
  match cards with
  | [] => OK it
  | s :: r => if i <? 5 then do it <- include_transform_card it s i; it_cards it r (i + 1) else OK it
  end.
Definition key_parse_include_transform (cards : list cstr) : res (include_transform A) := it_cards it_default cards 0.

(** include_transform.h:88-102 [define_transformation_t] *)
Record transformation_option := mkTO { to_name : list Z; to_params : list (F A) }.
Record define_transformation := mkDT {
  dt_tranid : Z; dt_options : list transformation_option; dt_title : option (list Z) }.

(** include_transform.c:156-208 [key_parse_define_transformation_card] *)
Definition define_transformation_card (dt : define_transformation) (s : cstr) (card_index : nat) (is_title : bool)
  : res define_transformation :=
  let cur := card_parse_begin in
  if card_index =? 0 then
    if is_title then do t <- card_parse_whole s; OK (mkDT (dt_tranid dt) (dt_options dt) (Some t))
    else do v <- try_parse_int s cur (dt_tranid dt); OK (mkDT v (dt_options dt) (dt_title dt))
  else if (card_index =? 1) && is_title then
    do v <- try_parse_int s cur (dt_tranid dt); OK (mkDT v (dt_options dt) (dt_title dt))
  else
    do d <- card_parse_done s cur;
    do o <- (if d then OK (mkTO (bs "NULL" ++ [NUL]) (repeat (fofz A 0) 7))
             else
               do n <- card_parse_string_width s cur W;
               do cur <- card_parse_next_width s cur W;
               do '(l, _) <- parse_members try_parse_float FUEL s cur 0 (repeat (fofz A 0) 7);
               OK (mkTO n l));
    OK (mkDT (dt_tranid dt) (dt_options dt ++ [o]) (dt_title dt)).

(** include_transform.c:135-154 [key_parse_define_transformation] *)
Fixpoint dt_cards (dt : define_transformation) (cards : list cstr) (i : nat) (is_title : bool) : res define_transformation :=
  match cards with
  | [] => OK dt
  | s :: r => do dt <- define_transformation_card dt s i is_title; dt_cards dt r (i + 1) is_title
  end.
Definition key_parse_define_transformation (cards : list cstr) (is_title : bool) : res define_transformation :=
  dt_cards (mkDT 0 [] None) cards 0 is_title.
End Model.
Arguments to_name {A}. Arguments to_params {A}. Arguments dt_tranid {A}. Arguments dt_options {A}. Arguments dt_title {A}.
