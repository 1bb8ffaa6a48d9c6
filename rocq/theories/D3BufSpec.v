(** * What a d3plot family is: one stream of bytes *)
From Coq Require DecimalString.
From Verif Require Import CBase BinModel D3BufModel.

(** The data: the bytes of all files one after the other. *)
Definition all_bytes (b : dbuf) : list Z := concat (map f_bytes (d_files b)).
Definition total (b : dbuf) : Z := Z.of_nat (length (all_bytes b)).
(** The bytes [from, from + n). *)
Definition bytes_from (b : dbuf) (from n : Z) : list Z := firstn (Z.to_nat n) (skipn (Z.to_nat from) (all_bytes b)).

(** The files are as they were when the family was opened, they can be opened,
    and they are not larger than a file offset can express. *)
Definition sound_family (b : dbuf) : Prop :=
  Forall (fun f => f_size f = Z.of_nat (length (f_bytes f)) /\ f_ok f = true) (d_files b) /\
  (total b < 2 ^ 63)%Z /\ (d_ws b = 4 \/ d_ws b = 8)%Z.
(** Every file is a whole number of words. *)
Definition aligned (b : dbuf) : Prop := Forall (fun f => (d_ws b | f_size f)%Z) (d_files b).

(** A pointer that stands at a byte position: in a file, at most at its end. *)
Definition stands_at (b : dbuf) (p : dptr) (pos : Z) : Prop :=
  exists pre f post, d_files b = pre ++ f :: post /\ p_file p = Some (length pre) /\
    (0 <= p_pos p <= f_size f)%Z /\ pos = (Z.of_nat (length (concat (map f_bytes pre))) + p_pos p)%Z.

(** The reads of a client: from a word position, several counts in a row. *)
Fixpoint reads (b : dbuf) (p : dptr) (counts : list Z) : res (dbuf * dptr * list (list Z)) :=
  match counts with
  | [] => OK (b, p, [])
  | n :: r => do ' (b, p, d) <- read_words b p n;
              match d_err b with
              | Some _ => OK (b, p, [d])
              | None => do ' (b, p, ds) <- reads b p r; OK (b, p, d :: ds)
              end
  end.
Definition reads_at (b : dbuf) (pos : Z) (counts : list Z) : res (dbuf * dptr * list (list Z)) :=
  do ' (b, p) <- seek b pos;
  match d_err b with Some _ => OK (b, p, []) | None => reads b p counts end.
(** The pieces of the stream these reads must return. *)
Fixpoint pieces (b : dbuf) (pos : Z) (counts : list Z) : list (list Z) :=
  match counts with
  | [] => []
  | n :: r => bytes_from b (pos * d_ws b) (n * d_ws b) :: pieces b (pos + n)%Z r
  end.
Fixpoint sum (l : list Z) : Z := match l with [] => 0%Z | x :: r => (x + sum r)%Z end.

(** The word of the stream at a word position under a word size. *)
Definition word_at (b : dbuf) (ws pos : Z) : Z := le_value (bytes_from b (pos * ws) ws).
(** A plausible control block: NDIM (word 15), ICODE (17), INUM (11), IT (19), IA (22). *)
Definition plausible (b : dbuf) (ws : Z) : Prop :=
  (2 <= word_at b ws 15 <= 7)%Z /\
  (word_at b ws 17 = 2 \/ word_at b ws 17 = 6)%Z /\
  (let inum := word_at b ws 11 in 1 <= inum <= 13 \/ 21 <= inum <= 26 \/ 1001 <= inum <= 1013 \/ 1021 <= inum <= 1026)%Z /\
  (let it := word_at b ws 19 in 0 <= it <= 3 \/ 10 <= it <= 13)%Z /\
  (word_at b ws 22 = 0 \/ word_at b ws 22 = 1)%Z.

(** The number in the name of the i-th file: nothing for the root file, then
    at least two decimal digits (printed by the standard library). *)
Definition file_number (i : nat) : list Z :=
  let d := bs (DecimalString.NilEmpty.string_of_uint (Nat.to_uint i)) in
  if i =? 0 then [] else if i <? 10 then bs "0" ++ d else d.

(** The files that belong to a root file name, in order: root, root01, root02,
    ..., up to the first that does not exist, at most 1000. *)
Definition family_of (fs : list Z -> option dfile) (root : list Z) (files : list dfile) : Prop :=
  length files <= 1000 /\
  (forall i f, nth_error files i = Some f -> fs (root ++ file_number i) = Some f) /\
  (length files < 1000 -> fs (root ++ file_number (length files)) = None).
