(** * What the objects of D3plot's readers hold *)
From Coq Require Import Permutation.
From Verif Require Import CBase D3Model D3PartModel CppPartNodesModel CppArrayModel ReadMemModel ReadMemSpec CppReadModel.
Open Scope nat_scope.

(** An exception with the error of the C function: nothing is left. *)
Definition thrown {A} (h h' : heap) (pl pl' : plot) (e : perr) (o : outcome A) : Prop :=
  pl' = pl /\ o = Throws e /\ leaves_nothing h h'.
(** An object with the values of the C function: its block is all that is left, and its
    end gives that back. *)
Definition gives_object {A} (h : heap) (v : plot * outcome (list A)) (m : heap * plot * outcome (list A * arr)) : Prop :=
  let '(h', pl', o) := m in
  match v with
  | (pl, Throws e) => thrown h h' pl pl' e o
  | (pl, Returned l) => exists a, pl' = pl /\ o = Returned (l, a) /\ a_size a = length l /\ leaves h h' [a_data a] /\
      exists h'', arr_destroy h' a = OK h'' /\ leaves_nothing h h''
  end.
(** The same for functions whose result is missing exactly after errors. *)
Definition gives_values (h : heap) (v : plot * outcome (option (list Z))) (m : heap * plot * outcome (list Z * arr)) : Prop :=
  match v with
  | (pl, Throws e) => gives_object h (pl, Throws e) m
  | (pl, Returned (Some l)) => gives_object h (pl, Returned l) m
  | (pl, Returned None) => False
  end.
(** Objects for every text, ending in any order. *)
Definition gives_objects (h : heap) (v : plot * outcome (list (list Z))) (m : heap * plot * outcome (list (list Z * arr))) : Prop :=
  let '(h', pl', o) := m in
  match v with
  | (pl, Throws e) => thrown h h' pl pl' e o
  | (pl, Returned l) => exists os, pl' = pl /\ o = Returned os /\ map fst os = l /\ Forall (fun x => a_size (snd x) = length (fst x)) os /\
      leaves h h' (map a_data (map snd os)) /\
      forall os', Permutation os' (map snd os) -> exists h'', destroy_all h' os' = OK h'' /\ leaves_nothing h h''
  end.
(** One array for every state: array [t] shows the [values] values from [t * values] on,
    all of which lie in the one block that is left; their ends, in any order, give it back. *)
Definition gives_rows (h : heap) (values states : nat) (v : plot * outcome (option (list Z))) (m : heap * plot * outcome (list Z * list (option arr))) : Prop :=
  let '(h', pl', o) := m in
  match v with
  | (pl, Throws e) => thrown h h' pl pl' e o
  | (pl, Returned None) => False
  | (pl, Returned (Some l)) => exists os p, pl' = pl /\ o = Returned (l, map Some os) /\ length os = states /\ length l = states * values /\
      leaves h h' [Some p] /\ room h' p (length l) /\
      (forall t, t < states -> exists a, nth_error os t = Some a /\ a_size a = values /\ a_data a = Some (fst p, t * values)) /\
      (0 < states -> forall os', Permutation os' os -> exists h'', destroy_all h' os' = OK h'' /\ leaves_nothing h h'')
  end.
(** A part object, whose end (d3plot_free_part) gives everything back. *)
Definition gives_part_object (h : heap) (v : plot * outcome part) (m : heap * plot * outcome (part * list (option ptr))) : Prop :=
  let '(h', pl', o) := m in
  match v with
  | (pl, Throws e) => thrown h h' pl pl' e o
  | (pl, Returned p) => exists ps, pl' = pl /\ o = Returned (p, ps) /\ leaves h h' ps /\ exists h'', free_part h' ps = OK h'' /\ leaves_nothing h h''
  end.
(** An exception, and a block that nothing leads to. *)
Definition throws_and_leaks {A} (h : heap) (pl : plot) (e : perr) (m : res (heap * plot * outcome A)) : Prop :=
  exists h' k, m = OK (h', pl, Throws e) /\ length h <= k /\ alive h' k.
