(** * What a key file means (independent of the parser)

    A file is a list of lines ([LineSpec.text_lines], without carriage
    returns).  This file says which keywords and cards it contains, how
    continued file names are joined and what an INCLUDE stands for. *)
From Verif Require Import CBase LineSpec PathSpec CardSpec KeyTableModel KeyTableSpec KeyParseModel.

(** ** Lines *)

(** the part of a line in front of the first '$' *)
Fixpoint text (l : list Z) : list Z :=
  match l with
  | [] => []
  | c :: t => if (c =? DOLLAR)%Z then [] else c :: text t
  end.

Definition comment_line (l : list Z) : bool :=
  match l with c :: _ => (c =? DOLLAR)%Z | [] => false end.

Fixpoint drop_blanks (l : list Z) : list Z :=
  match l with c :: t => if (c =? SPACE)%Z then drop_blanks t else l | [] => [] end.

Fixpoint word (l : list Z) : list Z :=
  match l with c :: t => if (c =? SPACE)%Z then [] else c :: word t | [] => [] end.

(** A keyword line is a '*' (possibly behind blanks) and a name. *)
Definition keyword_of (l : list Z) : option cstr :=
  match drop_blanks (text l) with
  | c :: r => if (c =? STAR)%Z then Some (word r) else None
  | [] => None
  end.

Definition same (a b : cstr) : bool := if list_eq_dec Z.eq_dec a b then true else false.

(** The card lines in front of the first keyword, and the keywords with their
    card lines; comment lines do not count and the keyword END ends the file. *)
Fixpoint sections (ls : list (list Z)) : list (list Z) * list (cstr * list (list Z)) :=
  match ls with
  | [] => ([], [])
  | l :: t =>
    if comment_line l then sections t
    else match keyword_of l with
         | Some n => if same n (bs "END") then ([], [])
                     else ([], (n, fst (sections t)) :: snd (sections t))
         | None => (l :: fst (sections t), snd (sections t))
         end
  end.

(** The keywords of a file with their cards; cards in front of the first
    keyword belong to a keyword without a name. *)
Definition blocks_of (ls : list (list Z)) : list block :=
  match fst (sections ls) with [] => [] | pre => [([], map text pre)] end ++
  map (fun '(n, cards) => (n, map text cards)) (snd (sections ls)).

(** ** Continued file names *)

Definition continued (l : list Z) : Prop := exists p, l = p ++ [SPACE; PLUS].

(** [lines] spell the file name [n]: all lines but the last one end with " +";
    the parts are concatenated and the blanks around the whole removed. *)
Definition spells (lines : list (list Z)) (n : cstr) : Prop :=
  exists parts final,
    lines = map (fun p => p ++ [SPACE; PLUS]) parts ++ [final] /\
    ~ continued (concat parts ++ final) /\
    trimmed (concat parts ++ final) n.

(** What the code needs in addition (see the [_refuted] theorems): the first
    part is not blank, no comment in the lines, the name has not exactly one
    character (counted with the blanks behind it). *)
Definition spellable (lines : list (list Z)) : Prop :=
  Forall (fun l => ~ In DOLLAR l) lines /\
  (forall p t l, lines = (p ++ [SPACE; PLUS]) :: l :: t -> ~ blanks p) /\
  (forall parts final, lines = map (fun p => p ++ [SPACE; PLUS]) parts ++ [final] ->
     forall b c, blanks b -> c <> SPACE -> concat parts ++ final <> b ++ [c]).

(** [lines] spell the names [ns], one after the other. *)
Definition spell_all (lines : list (list Z)) (ns : list cstr) : Prop :=
  exists groups, lines = concat groups /\ Forall2 spells groups ns /\ Forall spellable groups.

(** ** Keywords *)

Definition starts (p n : cstr) : Prop := exists t, n = p ++ t.

(** keywords whose cards are not interpreted *)
Definition plain (n : cstr) : Prop :=
  ~ starts (bs "INCLUDE") n \/ starts (bs "INCLUDE_MULTISCALE") n.

(** keywords all of whose cards are file (or directory) names *)
Definition all_names (n : cstr) : Prop :=
  n = bs "INCLUDE" \/ n = bs "INCLUDE_PATH" \/ n = bs "INCLUDE_PATH_RELATIVE".

(** keywords that are resolved if includes are parsed *)
Definition resolved (n : cstr) : Prop :=
  all_names n \/ n = bs "INCLUDE_BINARY" \/ n = bs "INCLUDE_NASTRAN".

(** The cards a keyword that is not resolved delivers. *)
Inductive delivers (n : cstr) : list (list Z) -> list cstr -> Prop :=
| deliver_plain : forall ls, plain n -> delivers n ls (map text ls)
| deliver_names : forall ls ns, all_names n -> spell_all ls ns -> delivers n ls ns
| deliver_first : forall g m ls, starts (bs "INCLUDE") n -> ~ plain n -> ~ all_names n ->
    spells g m -> spellable g -> delivers n (g ++ ls) (m :: map text ls).

(** A keyword without includes and the cards it delivers. *)
Definition block_delivers (b : cstr * list (list Z)) (out : block) : Prop :=
  fst out = fst b /\ ((snd b = [] /\ snd out = []) \/ (snd b <> [] /\ delivers (fst b) (snd b) (snd out))).

(** ** Includes *)

(** [c] is the path of [name] in the directory [dir]: the two joined by one
    separator. *)
Definition under (dir name c : cstr) : Prop :=
  is_cstr dir /\ is_cstr name /\
  exists a trailing b leading,
    dir = a ++ trailing /\ name = leading ++ b /\ seps trailing /\ seps leading /\
    (exists q z, a = q ++ [z] /\ z <> SEP) /\
    (match b with [] => name = [] | x :: _ => x <> SEP end) /\
    c = a ++ SEP :: b.

Definition listed (w : world) (paths : list cstr) (name c : cstr) : Prop :=
  exists before p after, paths = before ++ p :: after /\ under p name c /\ w_file w c <> None /\
    Forall (fun q => exists d, under q name d /\ w_file w d = None) before.

Definition unlisted (w : world) (paths : list cstr) (name : cstr) : Prop :=
  Forall (fun q => exists d, under q name d /\ w_file w d = None) paths.

(** Messages are printed into a buffer of 1024 bytes. *)
Definition printable (file name : cstr) : Prop := length file + length name <= 900.

(** the lines of a file the theorems speak about: keyword lines are shorter
    than 82 characters or start in the first column, keywords have a name *)
Definition keyword_line_ok (l : list Z) : Prop :=
  comment_line l = false -> forall n, keyword_of l = Some n ->
    n <> [] /\ (length l < 82 \/ exists r, l = STAR :: r).

Section Meaning.
Variable cfg : key_config.
Variable w : world.
Variable root : cstr.

Definition missing (name : cstr) : item :=
  if ignore_not_found_includes cfg then IgnoredNotFound name else NotFound name.

(** [plays paths file out paths']: with the include paths [paths], [file]
    produces the callbacks and messages [out] and leaves the include paths
    [paths']. *)
Inductive plays : list cstr -> cstr -> list item -> list cstr -> Prop :=
| play_file : forall paths file content pre blocks out paths',
    w_file w file = Some content ->
    Forall keyword_line_ok (map clean (text_lines content)) ->
    sections (map clean (text_lines content)) = (pre, blocks) ->
    pre <> [] \/ blocks <> [] ->
    plays_blocks paths file blocks out paths' ->
    plays paths file (map Ev (card_events [] 0 (map text pre)) ++ out) paths'
with plays_blocks : list cstr -> cstr -> list (cstr * list (list Z)) -> list item -> list cstr -> Prop :=
| play_none : forall paths file, plays_blocks paths file [] [] paths
| play_block : forall paths file n ls rest o1 p1 o2 p2,
    plays_block paths file n ls o1 p1 -> plays_blocks p1 file rest o2 p2 ->
    plays_blocks paths file ((n, ls) :: rest) (o1 ++ o2) p2
with plays_block : list cstr -> cstr -> cstr -> list (list Z) -> list item -> list cstr -> Prop :=
| play_empty : forall paths file n, plays_block paths file n [] [Ev (n, None, None)] paths
| play_cards : forall paths file n ls cards, ls <> [] ->
    (parse_includes cfg = true -> ~ resolved n) -> delivers n ls cards ->
    plays_block paths file n ls (map Ev (card_events n 0 cards)) paths
| play_include : forall paths file ls ns out paths', ls <> [] ->
    parse_includes cfg = true -> spell_all ls ns -> plays_names paths file ns out paths' ->
    plays_block paths file (bs "INCLUDE") ls out paths'
| play_binary : forall paths file g n ls out paths',
    parse_includes cfg = true -> spells g n -> spellable g -> plays_names paths file [n] out paths' ->
    length file <= 900 ->
    plays_block paths file (bs "INCLUDE_BINARY") (g ++ ls)
      (out ++ map CardCount (seq 2 (length ls))) paths'
| play_nastran : forall paths file g n ls out paths',
    parse_includes cfg = true -> spells g n -> spellable g -> plays_names paths file [n] out paths' ->
    length file <= 900 ->
    plays_block paths file (bs "INCLUDE_NASTRAN") (g ++ ls)
      (out ++ map CardCount (seq 3 (length ls - 1))) paths'
| play_path : forall paths file ls ns, ls <> [] -> parse_includes cfg = true -> spell_all ls ns ->
    Forall (printable file) ns ->
    plays_block paths file (bs "INCLUDE_PATH") ls
      (map PathNotFound (filter (fun n => negb (w_dir w n)) ns)) (paths ++ filter (w_dir w) ns)
| play_relative : forall paths file ls ns ds, ls <> [] -> parse_includes cfg = true -> spell_all ls ns ->
    Forall2 (under root) ns ds -> Forall (printable file) ds ->
    plays_block paths file (bs "INCLUDE_PATH_RELATIVE") ls
      (map PathNotFound (filter (fun n => negb (w_dir w n)) ds)) (paths ++ filter (w_dir w) ds)
with plays_names : list cstr -> cstr -> list cstr -> list item -> list cstr -> Prop :=
| play_no_name : forall paths file, plays_names paths file [] [] paths
| play_found : forall paths file n ns c o1 p1 o2 p2,
    listed w paths n c -> plays paths c o1 p1 -> plays_names p1 file ns o2 p2 ->
    plays_names paths file (n :: ns) (o1 ++ o2) p2
| play_missing : forall paths file n ns o2 p2,
    unlisted w paths n -> printable file n -> plays_names paths file ns o2 p2 ->
    plays_names paths file (n :: ns) (missing n :: o2) p2.
End Meaning.

(** Files the line reader splits correctly (see C09) and that consist of
    non-NUL bytes. *)
Definition ordinary (N : nat) (content : list Z) : Prop :=
  Forall (fun b => (0 < b < 256)%Z) content /\
  (length content mod N <> 0 \/ exists t c, content = t ++ [c] /\ c <> LF).

(** Uninitialised memory contains no line feeds. *)
Definition quiet_garbage (g : garbage) : Prop :=
  0 < g_N g /\ length (g_line g) = 82 /\ Forall (fun c => c <> LF) (g_line g) /\
  (forall k, g_fill g k <> LF) /\ length (g_name g) = 81.
