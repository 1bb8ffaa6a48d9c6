(** * Time steps *)
From Verif Require Import CBase SearchSpec PathModel PathSpec BinDirSpec BinModel.

(** Names of time steps: 'd' and digits. *)
Definition d_name (n : list Z) : Prop := exists t, n = 100%Z :: t /\ t <> [] /\ Forall (fun c => (48 <= c <= 57)%Z) t.

(** A path names something. *)
Definition exists_path (ops : list op) (p : list (list Z)) : Prop :=
  is_folder_path ops p \/ exists i, In (p, i) (records [] ops).

(** Every entry of the folder whose name starts with 'd' is a time step. *)
Definition tidy (ops : list op) (p : list (list Z)) : Prop :=
  forall t, exists_path ops (p ++ [100%Z :: t]) -> d_name (100%Z :: t).

(** The time steps of a folder in listing order. *)
Definition steps_of (ops : list op) (p : list (list Z)) (steps : list (list Z)) : Prop :=
  names_strict steps /\ forall d, In d steps <-> d_name d /\ exists_path ops (p ++ [d]).

(** Names a path can be put together from. *)
Definition proper (n : list Z) : Prop := n <> [] /\ ~ In SEP n.
Definition proper_names (ops : list op) : Prop := forall n i, In (OpFile n i) ops -> proper n.
(** Variables are not named like time steps or "metadata". *)
Definition specials_are_folders (ops : list op) : Prop :=
  forall n i, In (OpFile n i) ops -> ~ d_name n /\ n <> bs "metadata".

(** [drops p r]: [r] is [p] without some of its time step elements. *)
Inductive drops : list (list Z) -> list (list Z) -> Prop :=
| drops_nil : drops [] []
| drops_keep n p r : drops p r -> drops (n :: p) (n :: r)
| drops_drop d p r : d_name d -> drops p r -> drops (d :: p) r.

(** What a path denotes, with the type it reports: folders have type 255. *)
Definition denotes_type (ops : list op) (p : list (list Z)) (t : Z) : Prop :=
  (t = 255%Z /\ (p = [] \/ is_folder_path ops p)) \/
  exists size fi pos, last_record (records [] ops) p (Some (t, size, fi, pos)).

(** ** How a simple path is resolved *)

(** The first time step of a folder. *)
Definition first_step (ops : list op) (p : list (list Z)) (d : list Z) : Prop :=
  d_name d /\ exists_path ops (p ++ [d]) /\ forall d', d_name d' -> exists_path ops (p ++ [d']) -> d' = d \/ bytes_lt d d'.

(** [p]: the folder reached, [r]: the real path so far (without the time
    steps), [o]: the final result.  Each further element is looked up in the
    folder itself, then in its folder "metadata", then in its first time step;
    variables end the path. *)
Fixpoint simple_meets (ops : list op) (p r : list (list Z)) (timed : bool) (els : list (list Z)) (o : option (list (list Z) * Z * bool)) : Prop :=
  match els with
  | [] => o = Some (r, 255%Z, timed)
  | e :: rest =>
    let go p r timed :=
      (is_folder_path ops p -> simple_meets ops p r timed rest o) /\
      (forall t size fi pos, last_record (records [] ops) p (Some (t, size, fi, pos)) ->
         o = match rest with [] => Some (r, t, timed) | _ => None end) in
    let here := exists_path ops (p ++ [e]) in
    let meta := exists_path ops (p ++ [bs "metadata"; e]) in
    (here -> go (p ++ [e]) (r ++ [e]) timed) /\
    (~ here -> meta -> go (p ++ [bs "metadata"; e]) (r ++ [bs "metadata"; e]) timed) /\
    (~ here -> ~ meta -> forall d, first_step ops p d -> exists_path ops (p ++ [d; e]) -> go (p ++ [d; e]) (r ++ [e]) true) /\
    (~ here -> ~ meta -> (forall d, first_step ops p d -> ~ exists_path ops (p ++ [d; e])) -> o = None)
  end.

(** The whole path: the root folder, or a folder of the root and what is
    below it. *)
Definition simple_path_meets (ops : list op) (els : list (list Z)) (o : option (list (list Z) * Z * bool)) : Prop :=
  match els with
  | [] => o = Some ([], 255%Z, false)
  | e :: rest =>
    (is_folder_path ops [e] -> simple_meets ops [e] [e] false rest o) /\
    (~ is_folder_path ops [e] -> o = None)
  end.
(** A path as text. *)
Definition path_text (els : list (list Z)) : list Z := match els with [] => [SEP] | _ => concat (map (cons SEP) els) end.

(** ** Timed reads *)

(** The bytes of a variable in the opened files. *)
Definition has_bytes (files : list (option disk)) (i : info) (bytes : list Z) : Prop :=
  let '(t, size, fi, pos) := i in
  exists data, nth_error files (Z.to_nat fi) = Some (Some (Content data)) /\
    (0 <= pos < 2 ^ 63)%Z /\ (pos + size <= Z.of_nat (length data))%Z /\ (0 <= size)%Z /\
    bytes = firstn (Z.to_nat size) (skipn (Z.to_nat pos) data).

(** The step [d] of the folder [p] has the variable [rel] with these bytes. *)
Definition step_value (ops : list op) (files : list (option disk)) (p rel : list (list Z)) (d : list Z) (bytes : list Z) : Prop :=
  exists i, last_record (records [] ops) (p ++ d :: rel) (Some i) /\ has_bytes files i bytes.

(** The steps [d] and [d'] have the same entries on the way to [rel]. *)
Definition same_entries (ops : list op) (p rel : list (list Z)) (d d' : list Z) : Prop :=
  forall q n, prefix q (removelast rel) -> exists_path ops (p ++ d :: q ++ [n]) <-> exists_path ops (p ++ d' :: q ++ [n]).

(** [subpath r l]: [r] is [l] without some of its elements, but with its last
    one. *)
Inductive subpath : list (list Z) -> list (list Z) -> Prop :=
| sub_last n : subpath [n] [n]
| sub_keep n r l : subpath r l -> subpath (n :: r) (n :: l)
| sub_skip n r l : subpath r l -> subpath r (n :: l).

(** What a timed read says about a path that leads to an entry. *)
Definition not_timed_message (ops : list op) (variable : cstr) (m : cstr) : Prop :=
  (elements variable = [] -> ops <> [] -> m = bs "The path """ ++ variable ++ bs """ is too short") /\
  (elements variable <> [] -> is_folder_path ops (elements variable) -> m = bs "The variable """ ++ variable ++ bs """ is either metadata (not timed) or does not exist") /\
  (forall i, elements variable <> [] -> In (elements variable, i) (records [] ops) -> m = bs "The variable """ ++ variable ++ bs """ is not timed").

(** A number printed in decimal, without leading zeros. *)
Definition prints (k : nat) (ds : cstr) : Prop :=
  ds <> [] /\ Forall (fun c => 48 <= c <= 57)%Z ds /\ (List.hd 0%Z ds = 48%Z -> ds = [48%Z]) /\
  fold_left (fun n c => n * 10 + (c - 48))%Z ds 0%Z = Z.of_nat k.

(** The messages of a timed read that gives nothing; [steps] is the number of time steps
    the caller finds in his count. *)
Definition timed_message (files : list (option disk)) (variable : cstr) (steps : Z) (m : cstr) : Prop :=
  m = bs "The binout directory is empty" \/
  m = bs "The path """ ++ variable ++ bs """ is too short" \/
  m = bs "The variable """ ++ variable ++ bs """ does not exist" \/
  m = bs "The variable """ ++ variable ++ bs """ is either metadata (not timed) or does not exist" \/
  m = bs "The variable """ ++ variable ++ bs """ is not timed" \/
  m = bs "The files of """ ++ variable ++ bs """ are empty" \/
  (exists why, In (Some (Unreadable why)) files /\ m = bs "Failed to access the file of """ ++ variable ++ bs """: " ++ why) \/
  m = bs "Failed to seek to the data of """ ++ variable ++ bs """" \/
  (exists k ds, (Z.of_nat k < steps)%Z /\ ((Z.of_nat k < 10 ^ 20)%Z -> prints k ds) /\
     (m = bs "The structure of variable """ ++ variable ++ bs """ is invalid. Time Step " ++ ds ++ bs " differs from the first time step" \/
      m = bs "Failed to read time step " ++ ds ++ bs " of """ ++ variable ++ bs """")).
