(** * What a binout file is *)
From Verif Require Import CBase SearchSpec PathModel PathSpec BinDirSpec BinModel.

(** ** The format *)

Inductive record :=
| Cd (path : cstr)                                      (* change the folder *)
| Data (type : Z) (name : cstr) (payload : list Z)      (* a variable *)
| Other (command : Z) (payload : list Z).               (* anything else *)

(** [n] bytes, the lowest first. *)
Fixpoint le_bytes (n : nat) (v : Z) : list Z :=
  match n with O => [] | S k => (v mod 256)%Z :: le_bytes k (v / 256)%Z end.

Record format := { f_length : nat; f_offset : Z; f_command : nat; f_typeid : nat; f_unused : Z }.

Definition body (f : format) (r : record) : list Z :=
  match r with
  | Cd path => path
  | Data type name payload => le_bytes (f_typeid f) type ++ Z.of_nat (length name) :: name ++ payload
  | Other _ payload => payload
  end.
Definition command (r : record) : Z := match r with Cd _ => 2%Z | Data _ _ _ => 3%Z | Other c _ => c end.
Definition record_size (f : format) (r : record) : nat := f_length f + f_command f + length (body f r).
Definition encode_record (f : format) (r : record) : list Z :=
  le_bytes (f_length f) (Z.of_nat (record_size f r)) ++ le_bytes (f_command f) (command r) ++ body f r.
Definition encode_header (f : format) : list Z :=
  [8; Z.of_nat (f_length f); f_offset f; Z.of_nat (f_command f); Z.of_nat (f_typeid f); 1; 0; f_unused f]%Z.
Definition encode (f : format) (rs : list record) : list Z := encode_header f ++ concat (map (encode_record f) rs).

Definition byte (b : Z) : Prop := (0 <= b < 256)%Z.

(** Formats with fields of 1 to 8 bytes, and records that fit their fields. *)
Definition format_ok (f : format) : Prop := 1 <= f_length f <= 8 /\ 1 <= f_command f <= 8 /\ 1 <= f_typeid f <= 8.
Definition record_ok (f : format) (r : record) : Prop :=
  (Z.of_nat (record_size f r) < 256 ^ Z.of_nat (f_length f))%Z /\ (0 <= command r < 256 ^ Z.of_nat (f_command f))%Z /\
  (Z.of_nat (record_size f r) < 2 ^ 62)%Z /\
  match r with
  | Cd path => length path < 1024 /\ ascii_str path
  | Data type name payload => (0 <= type < 256)%Z /\ length name < 256 /\ ascii_str name
  | Other c _ => c <> 2%Z /\ c <> 3%Z
  end.

(** ** The meaning of the records *)

(** The folder an element of a CD path leads to. *)
Definition cd_one (cur : list (list Z)) (e : list Z) : list (list Z) :=
  if list_eq_dec Z.eq_dec e (bs "..") then removelast cur else cur ++ [e].
(** Absolute paths replace the folder, relative paths extend it. *)
Definition is_abs (path : cstr) : bool := match path with c :: _ => (c =? 47)%Z | [] => false end.
Definition cd_to (cur : list (list Z)) (path : cstr) : list (list Z) :=
  fold_left cd_one (elements path) (if is_abs path then [] else cur).

(** The variables a file stores, in order, with their full path and payload. *)
Fixpoint stored (cur : list (list Z)) (rs : list record) : list (list (list Z) * (Z * list Z)) :=
  match rs with
  | [] => []
  | Cd path :: r => stored (cd_to cur path) r
  | Data type name payload :: r => (cur ++ [name], (type, payload)) :: stored cur r
  | Other _ _ :: r => stored cur r
  end.
(** The folders it visits. *)
Fixpoint visited (cur : list (list Z)) (rs : list record) : list (list (list Z)) :=
  match rs with
  | [] => []
  | Cd path :: r => cd_to cur path :: visited (cd_to cur path) r
  | _ :: r => visited cur r
  end.

(** ** Files the library supports *)

(** [walk cur len els]: the elements of a relative path can be followed from
    the folder [cur] whose path string has at most [len] characters; ".." never
    leaves the root and the path string never exceeds the library's buffer.
    Result: the folder and the length. *)
Fixpoint walk (cur : list (list Z)) (len : nat) (els : list (list Z)) : option (list (list Z) * nat) :=
  match els with
  | [] => Some (cur, len)
  | e :: r =>
    if list_eq_dec Z.eq_dec e (bs "..") then
      match rev cur with
      | [] => None
      | l :: _ => walk (removelast cur) (Nat.max 1 (len - length l - 1)) r
      end
    else if len + length e + 1 <? 1024 then walk (cur ++ [e]) (len + length e + 1) r
    else None
  end.

(** Absolute paths: "/" or one separator followed by elements, none of them
    ".."; relative paths end in a proper folder; variables only inside of a
    proper folder. *)
Fixpoint supported (cur : list (list Z)) (len : nat) (rs : list record) : Prop :=
  match rs with
  | [] => True
  | Cd path :: r =>
    if is_abs path then
      (path = [SEP] \/ clean path) /\ ~ In (bs "..") (elements path) /\ supported (elements path) (length path) r
    else path <> [] /\
      match walk cur len (elements path) with
      | Some (cur', len') => cur' <> [] /\ supported cur' len' r
      | None => False
      end
  | Data _ _ _ :: r => cur <> [] /\ supported cur len r
  | Other _ _ :: r => supported cur len r
  end.

(** ** Several files *)

(** A file: name, format and records. *)
Notation bfile := (list Z * (format * list record))%type (only parsing).
Definition on_disk (f : bfile) : cstr * disk := (fst f, Content (encode (fst (snd f)) (snd (snd f)))).

Definition file_ok (f : bfile) : Prop :=
  format_ok (fst (snd f)) /\ Forall (record_ok (fst (snd f))) (snd (snd f)) /\ supported [] 1 (snd (snd f)) /\
  (Z.of_nat (length (encode (fst (snd f)) (snd (snd f)))) < 2 ^ 62)%Z.

Definition all_stored (files : list bfile) : list (list (list Z) * (Z * list Z)) :=
  concat (map (fun f => stored [] (snd (snd f))) files).
Definition all_visited (files : list bfile) : list (list (list Z)) :=
  concat (map (fun f => visited [] (snd (snd f))) files).

(** No path is both a variable and a folder. *)
Definition no_clash (files : list bfile) : Prop :=
  forall q v p, In (q, v) (all_stored files) -> In p (all_visited files) -> ~ prefix q p.

(** The last value stored under a path. *)
Definition last_stored (l : list (list (list Z) * (Z * list Z))) (p : list (list Z)) (o : option (Z * list Z)) : Prop :=
  match o with
  | Some v => exists a b, l = a ++ (p, v) :: b /\ forall w, ~ In (p, w) b
  | None => forall w, ~ In (p, w) l
  end.

(** Bytes of one element of the types 1 (INT8) ... 10 (FLOAT64). *)
Definition element_bytes (t : Z) : Z := nth (Z.to_nat t) [255; 1; 2; 4; 8; 1; 2; 4; 8; 4; 8]%Z 255%Z.

(** What a typed read of type [t] has to do if [o] is the stored value. *)
Definition read_meets (t : Z) (o : option (Z * list Z)) (r : read_result) : Prop :=
  let fails := r_data r = None /\ r_error r <> None in
  match o with
  | None => fails
  | Some (type, payload) =>
    (type = t /\ payload <> [] ->
       r_data r = Some payload /\ r_size r = (Z.of_nat (length payload) / element_bytes t)%Z /\ r_error r = None) /\
    (~ (type = t /\ payload <> []) -> fails)
  end.

(** Contents that are not a supported binout file: too short for the header,
    not little endian, a field of more than 8 bytes, a foreign float format. *)
Definition broken_header (data : list Z) : Prop :=
  length data < 8 \/ nth 5 data 0%Z <> 1%Z \/ (nth 1 data 0 > 8)%Z \/ (nth 3 data 0 > 8)%Z \/ (nth 4 data 0 > 8)%Z \/ nth 6 data 0%Z <> 0%Z.
Definition rejected (d : disk) : Prop := match d with Unreadable _ => True | Content data => broken_header data end.
(** The message about it. *)
Definition reject_message (d : disk) : cstr :=
  match d with
  | Unreadable why => why
  | Content data =>
    if length data <? 8 then bs "Failed to read header"
    else if negb (nth 5 data 0 =? 1)%Z then bs "Unsupported Endianess"
    else if (8 <? nth 1 data 0)%Z then bs "The record length field size is unsupported"
    else if (8 <? nth 3 data 0)%Z then bs "The command length field size is unsupported"
    else if (8 <? nth 4 data 0)%Z then bs "The typeid field size is unsupported"
    else bs "The float format is unsupported"
  end.
Definition names_it (x : cstr * disk) (e : cstr) : Prop := e = fst x ++ bs ": " ++ reject_message (snd x).
(** The message about a file that ends inside of a record, [k] bytes behind its
    start: it names the field the file ends in.  The end of a payload that is
    skipped is only noticed when the next record is read. *)
Definition cut_message (f : format) (r : record) (k : nat) : cstr :=
  let k' := k - f_length f - f_command f in
  if k <? f_length f then bs "Failed to read record length"
  else if k <? f_length f + f_command f then bs "Failed to read command"
  else match r with
  | Cd _ => bs "Failed to read PATH of CD record"
  | Data _ name _ =>
    if k' <? f_typeid f then bs "Failed to read TYPEID of DATA record"
    else if k' <? f_typeid f + 1 then bs "Failed to read Name length of DATA record"
    else if k' <? f_typeid f + 1 + length name then bs "Failed to read Name of DATA record"
    else bs "Failed to read record length"
  | Other _ _ => bs "Failed to read record length"
  end.
(** The error of a binout: the messages, one per line. *)
Definition error_lines (errs : list cstr) : option cstr := match errs with [] => None | e :: r => Some (e ++ flat_map (fun x => LF :: x) r) end.
