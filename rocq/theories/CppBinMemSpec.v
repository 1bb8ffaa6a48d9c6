(** * What the objects of Binout's readers hold *)
From Coq Require Import Permutation.
From Verif Require Import CBase PathModel BinDirModel BinModel TimedModel CppArrayModel ReadMemSpec BinMemModel BinMemSpec PyBinoutModel CppReadModel CppBinMemModel.
Open Scope nat_scope.

(** [holds h0 h e others] (BinMemSpec.v): since [h0] exactly the error string [e] of the
    handle and what the objects [others] own have been left. *)
(** An exception that shows the error string of the handle: its end leaves it there. *)
Definition shows_error (h0 : heap) (others : list (option ptr)) (m : cstr) (h : heap) (e : option ptr) (what : cstr) (s : arr) : Prop :=
  what = m /\ e <> None /\ a_data s = e /\ a_size s = length m /\ holds h0 h e others /\ arr_destroy h s = OK h.
(** An exception with a message of its own, in a block with room for it and its end. *)
Definition owns_message (h0 : heap) (e : option ptr) (others : list (option ptr)) (m : cstr) (h : heap) (what : cstr) (s : arr) : Prop :=
  what = m /\ a_size s = length m /\ holds h0 h e (a_data s :: others) /\ (exists p n, a_data s = Some p /\ room h p n /\ length m < n) /\
  exists h', arr_destroy h s = OK h' /\ holds h0 h' e others.

Definition cpp_gives_type (h0 : heap) (others : list (option ptr)) (r : Z * option cstr) (x : heap * option ptr * thrown_or Z) : Prop :=
  let '(h, e, o) := x in
  match snd r, o with
  | None, Value v => v = fst r /\ e = None /\ holds h0 h None others
  | Some m, Exception what s => shows_error h0 others m h e what s
  | _, _ => False
  end.
(** A value whose memory is the caller's or the handle's. *)
Definition cpp_gives_value {A} (h0 : heap) (e : option ptr) (others : list (option ptr)) (r : pyres A) (x : heap * thrown_or A) : Prop :=
  let '(h, o) := x in
  match r, o with
  | Returns v, Value w => w = v /\ holds h0 h e others
  | Raises m, Exception what s => owns_message h0 e others m h what s
  | _, _ => False
  end.
Definition cpp_gives_array (h0 : heap) (others : list (option ptr)) (t : Z) (r : pyres pyval) (x : heap * option ptr * thrown_or (pyval * arr)) : Prop :=
  let '(h, e, o) := x in
  match r, o with
  | Returns v, Value (w, a) => w = v /\ e = None /\
      (exists n bytes p, v = PArray t n bytes /\ a_data a = Some p /\ a_size a = Z.to_nat (n * type_size t) /\ room h p (length bytes)) /\
      holds h0 h None (a_data a :: others) /\ exists h', arr_destroy h a = OK h' /\ holds h0 h' None others
  | Raises m, Exception what s => shows_error h0 others m h e what s
  | _, _ => False
  end.
(** The arrays of the time steps lie one after the other in one block; ending them, in
    any order, gives it back. *)
Definition cpp_gives_rows (h0 : heap) (others : list (option ptr)) (t : Z) (r : pyres pyval) (x : heap * option ptr * thrown_or (pyval * list (option arr))) : Prop :=
  let '(h, e, o) := x in
  match r, o with
  | Returns v, Value (w, l) => w = v /\ e = None /\ exists n rows os p, v = PRows t n rows /\ l = map Some os /\ length os = length rows /\ 0 < length rows /\
      holds h0 h None (Some p :: others) /\
      (forall k, k < length rows -> exists a, nth_error os k = Some a /\ a_data a = Some (fst p, k * Z.to_nat (n * type_size t)) /\ a_size a = Z.to_nat (n * type_size t)) /\
      forall os', Permutation os' os -> exists h', destroy_all h os' = OK h' /\ holds h0 h' None others
  | Raises m, Exception what s => shows_error h0 others m h e what s
  | _, _ => False
  end.
