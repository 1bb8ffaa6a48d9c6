(** * Specification: a family of d3plot files of which only some are open *)
From Verif Require Import CBase BinModel D3BufModel D3BufSpec D3SeqModel.

(** The same family in the thread safe build. *)
Definition erase (b : sbuf) : dbuf := {| d_files := map sf_file (s_files b); d_ws := s_ws b; d_err := s_err b |}.

(** Exactly the files from [s_first] to [s_last] are open; nothing leaked. *)
Definition window (b : sbuf) : Prop :=
  s_first b <= s_last b < length (s_files b) /\ length (s_files b) <= 1000 /\
  (forall i f, nth_error (s_files b) i = Some f -> sf_open f = ((s_first b <=? i) && (i <=? s_last b))%bool) /\
  s_count b = s_last b + 1 - s_first b /\ s_count b <= s_limit b.
(** Every file is open. *)
Definition all_open (b : sbuf) : Prop := forall f, In f (s_files b) -> sf_open f = true.
(** A file of the window. *)
Definition in_window (b : sbuf) (i : nat) : Prop := s_first b <= i <= s_last b.
(** No more files can be opened. *)
Definition tight (b : sbuf) : Prop := s_count b = s_limit b.
(** fopen would succeed on every file. *)
Definition openable (b : sbuf) : Prop := forall f, In f (s_files b) -> f_ok (sf_file f) = true.
(** The file in which the byte of a word position is. *)
Definition lies_in (b : sbuf) (word_pos : Z) (i : nat) : Prop :=
  exists pre f post, s_files b = pre ++ f :: post /\ length pre = i /\
    (Z.of_nat (length (concat (map f_bytes (map sf_file pre)))) <= word_pos * s_ws b < Z.of_nat (length (concat (map f_bytes (map sf_file pre)))) + f_size (sf_file f))%Z.

(** Too far away for the window to move there file by file (d3_buffer.c:577-592). *)
Definition far (b : sbuf) (i : nat) : Prop :=
  s_first b < s_last b /\ (s_last b + s_count b < i \/ i + s_count b < s_first b).
(** A neighbour of the window: neither open nor far away. *)
Definition near (b : sbuf) (i : nat) : Prop := s_first b < s_last b /\ i < length (s_files b) /\ ~ in_window b i /\ ~ far b i.

(** The reads of a client: from a word position, several counts in a row (as [reads_at] of D3BufSpec.v). *)
Fixpoint s_reads (b : sbuf) (p : dptr) (counts : list Z) : res (sbuf * dptr * list (list Z)) :=
  match counts with
  | [] => OK (b, p, [])
  | n :: r => do ' (b, p, d) <- s_read_words b p n;
              match s_err b with
              | Some _ => OK (b, p, [d])
              | None => do ' (b, p, ds) <- s_reads b p r; OK (b, p, d :: ds)
              end
  end.
Definition s_reads_at (b : sbuf) (pos : Z) (counts : list Z) : res (sbuf * dptr * list (list Z)) :=
  do ' (b, p) <- s_seek b pos;
  match s_err b with Some _ => OK (b, p, []) | None => s_reads b p counts end.
