(** * Model of the keyword table of src/key.c: key_file_parse_callback,
    key_file_get, key_file_get_slice *)
From Verif Require Import CBase SearchModel.

(** [while (j > index) { a[j] = a[j-1]; j--; }] with [n = j - index]; the idiom
    "Move everything to the right" (key.c:111-116). *)
Fixpoint shift_right {A} (n : nat) (a : list A) (j : nat) : res (list A) :=
  match n with
  | O => OK a
  | S n' => do x <- aget a (j - 1); do a <- aset a j x; shift_right n' a (j - 1)
  end.

(** key.h:60-70 [keyword_t] ([card_t] is represented by its string). *)
Record keyword := { kw_name : cstr; kw_cards : list cstr }.

(** key.c:81-85 [key_file_parse_data]; [num_keywords] is the length of
    [keywords], [current_keyword] points into that array. *)
Record key_data := { kd_keywords : list keyword; kd_current : option nat }.

(** key.c:101-103: [while (strcmp(keywords[index].name, keyword_name) == 0)
    index++;] - there is no check against the length of the array. *)
Fixpoint skip_equal (fuel : nat) (names : list cstr) (name : cstr) (index : nat) : res nat :=
  match fuel with
  | O => OOF
  | S f =>
    do x <- aget names index;
    if (strcmp x name =? 0)%Z then skip_equal f names name (index + 1) else OK index
  end.

(** key.c:91-106: where the new keyword goes. *)
Definition keyword_position (ks : list keyword) (name : cstr) : res nat :=
  match ks with
  | [] => OK 0
  | _ =>
    let names := map kw_name ks in
    do ' (index, found) <- key_file_binary_search_insert names 0 (length ks - 1) name;
    if found then
      let index := index + 1 in
      if negb (index =? length ks) then skip_equal (S (length ks)) names name index
      else OK index
    else OK index
  end.

(** key.c:87-133 [key_file_parse_callback].  [card_index]: [None] is [~0].
    The cell appended by [realloc] is uninitialised; here it contains an
    arbitrary keyword. *)
Definition key_file_parse_callback (d : key_data) (keyword_name : cstr) (card : option cstr)
  (card_index : option nat) : res key_data :=
  let fresh := match kd_current d, card_index with
               | None, _ => true
               | _, None => true
               | _, Some i => i =? 0
               end in
  do d <- (if fresh then
      do index <- keyword_position (kd_keywords d) keyword_name;
      let num := length (kd_keywords d) + 1 in
      let arr := kd_keywords d ++ [{| kw_name := [JUNK]; kw_cards := [] |}] in
      do arr <- shift_right (num - 1 - index) arr (num - 1);
      do arr <- aset arr index {| kw_name := keyword_name; kw_cards := [] |};
      OK {| kd_keywords := arr; kd_current := Some index |}
    else OK d);
  match card, kd_current d with
  | Some c, Some k =>
    do kw <- aget (kd_keywords d) k;
    do arr <- aset (kd_keywords d) k {| kw_name := kw_name kw; kw_cards := kw_cards kw ++ [c] |};
    OK {| kd_keywords := arr; kd_current := kd_current d |}
  | _, _ => OK d
  end.

(** An invocation of the callback. *)
Definition event := (cstr * option cstr * option nat)%type.

(** key.c:135-172 [key_file_parse] for a parse without errors: the callback
    is run on the sequence of events the parser delivers. *)
Fixpoint key_run (d : key_data) (evs : list event) : res (list keyword) :=
  match evs with
  | [] => OK (kd_keywords d)
  | (name, card, i) :: t => do d <- key_file_parse_callback d name card i; key_run d t
  end.
Definition key_file_parse_events (evs : list event) : res (list keyword) :=
  key_run {| kd_keywords := []; kd_current := None |} evs.

(** key.c:733-736: [while (i > 0 && strcmp(keywords[i].name, name) == 0) i--;]
    also 784-786. *)
Fixpoint back_equal (names : list cstr) (name : cstr) (i : nat) : res nat :=
  match i with
  | O => OK O
  | S i' => do x <- aget names i; if (strcmp x name =? 0)%Z then back_equal names name i' else OK i
  end.

(** key.c:742-746: [while (j < index && i < num) { j++; i++; }] with
    [n = index - j]; result (j, i). *)
Fixpoint advance_by (n j i num : nat) : nat * nat :=
  match n with
  | O => (j, i)
  | S n' => if i <? num then advance_by n' (j + 1) (i + 1) num else (j, i)
  end.

(** key.c:712-757 [key_file_get]; the result is the index of the keyword in
    the array ([None] = NULL). *)
Definition key_file_get (names : list cstr) (name : cstr) (index : nat) : res (option nat) :=
  match names with
  | [] => OK None
  | _ =>
    let num := length names in
    do r <- key_file_binary_search names 0 (num - 1) name;
    match r with
    | None => OK None
    | Some find_index =>
      if (find_index =? 0) && (index =? 0) then OK (Some 0)
      else
        do i <- back_equal names name find_index;
        do x <- aget names i;
        let i := if negb (i =? 0) || negb (strcmp x name =? 0)%Z then i + 1 else i in
        let '(j, i) := advance_by index 0 i num in
        if j =? index then
          do y <- aget names i;
          if (strcmp y name =? 0)%Z then OK (Some i) else OK None
        else OK None
    end
  end.

(** key.c:795-798 *)
Fixpoint forward_equal (fuel : nat) (names : list cstr) (name : cstr) (i : nat) : res nat :=
  match fuel with
  | O => OOF
  | S f =>
    if i <? length names then
      do x <- aget names i;
      if (strcmp x name =? 0)%Z then forward_equal f names name (i + 1) else OK i
    else OK i
  end.

(** key.c:759-807 [key_file_get_slice]: (start, size) or NULL and 0. *)
Definition key_file_get_slice (names : list cstr) (name : cstr) : res (option (nat * nat)) :=
  match names with
  | [] => OK None
  | _ =>
    let num := length names in
    do r <- key_file_binary_search names 0 (num - 1) name;
    match r with
    | None => OK None
    | Some find_index =>
      do start_index <- (if negb (find_index =? 0) then
          do s <- back_equal names name find_index; OK (s + 1) else OK find_index);
      do end_index <- (if negb (find_index =? num - 1) then
          do e <- forward_equal (S num) names name find_index; OK (e - 1) else OK find_index);
      OK (Some (start_index, end_index + 1 - start_index))
    end
  end.
