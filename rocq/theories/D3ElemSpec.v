(** * What the element state readers must return *)
From Verif Require Import CBase BinModel D3BufModel D3BufSpec D3Model D3Spec D3ReadModel D3ReadSpec D3ElemModel.
Open Scope Z_scope.

(** [n] numbers from word [pos] on, as doubles; zeros if they are not stored. *)
Definition nums (b : dbuf) (pos n : Z) : list Z := map (to_double (d_ws b)) (stretch b pos n).
Definition group (b : dbuf) (stored pos n : Z) : list Z := if stored =? 0 then repeat 0 (Z.to_nat n) else nums b pos n.
Definition single (b : dbuf) (stored pos : Z) : Z := if stored =? 0 then 0 else to_double (d_ws b) (wd b pos).

(** ** Solids: NV3D words per element: the stress (if stored), the plastic strain
    (if stored), NEIPH further values, whose last six are the strain if ISTRN = 1. *)
Definition solid_words (b : dbuf) : Z := 6 * iosol (cval b IOSHL0) + iosol (cval b IOSHL1) + cval b NEIPH.
Definition solid_spec (b : dbuf) (istrn pos : Z) : solid :=
  {| so_sigma := group b (iosol (cval b IOSHL0)) pos 6;
     so_plastic := single b (iosol (cval b IOSHL1)) (pos + 6 * iosol (cval b IOSHL0));
     so_epsilon := if (istrn =? 1) && (6 <=? cval b NEIPH) then nums b (pos + solid_words b - 6) 6 else repeat 0 6 |}.

(** ** Integration points: what a user sees behind the pointers *)
Record surface_view : Type := { v_sigma : list Z; v_plastic : Z; v_history : list Z }.
Fixpoint all {A} (l : list (option A)) : option (list A) :=
  match l with
  | [] => Some []
  | Some x :: r => match all r with Some t => Some (x :: t) | None => None end
  | None :: _ => None
  end.
(** [n] cells from [off] on, all of them written. *)
Definition see {A} (m : cells A) (off n : Z) : option (list A) :=
  if (0 <=? off) && (off + n <=? Z.of_nat (length m)) then all (firstn (Z.to_nat n) (skipn (Z.to_nat off) m)) else None.
Definition see_surface (hist : cells Z) (nhv : Z) (s : surface) : option surface_view :=
  match (if nhv =? 0 then Some [] else match sf_hist s with Some off => see hist off nhv | None => None end) with
  | Some h => Some {| v_sigma := sf_sigma s; v_plastic := sf_plastic s; v_history := h |}
  | None => None
  end.
(** mid, inner, outer, add_ips[0], add_ips[1], ... *)
Definition pointed (adds : cells surface) (l : layers) (j : nat) : option surface :=
  match j with
  | O => l_mid l | 1%nat => l_inner l | 2%nat => l_outer l
  | S (S (S k)) => match l_add l with Some a => if 0 <=? a then match nth_error adds (Z.to_nat a + k) with Some s => s | None => None end else None | None => None end
  end.
Definition see_layers (hist : cells Z) (adds : cells surface) (nhv nadd : Z) (l : layers) : option (list surface_view) :=
  all (map (fun j => match pointed adds l j with Some s => see_surface hist nhv s | None => None end) (seq 0 (3 + Z.to_nat nadd))).

(** An integration point in the file: stress, plastic strain, NEIPS history variables. *)
Definition ip_words (b : dbuf) : Z := 6 * ioshl (cval b IOSHL0) + ioshl (cval b IOSHL1) + cval b NEIPS.
Definition surface_spec (b : dbuf) (pos : Z) : surface_view :=
  {| v_sigma := group b (ioshl (cval b IOSHL0)) pos 6; v_plastic := single b (ioshl (cval b IOSHL1)) (pos + 6 * ioshl (cval b IOSHL0));
     v_history := nums b (pos + 6 * ioshl (cval b IOSHL0) + ioshl (cval b IOSHL1)) (cval b NEIPS) |}.
Definition ips_of (b : dbuf) : Z := maxint_of (cval b MAXINT).
(** Strains are stored if ISTRN = 1. *)
Definition stored1 (istrn : Z) : Z := if istrn =? 1 then 1 else 0.

(** ** Shells: all integration points, 8 resultants, 4 other values, the strains. *)
Record shell_view : Type := {
  w_ips : list surface_view; w_inner : list Z; w_outer : list Z; w_bending : list Z; w_shear : list Z; w_normal : list Z;
  w_thickness : Z; w_vars : list Z; w_energy : Z }.
Definition see_shell (hist : cells Z) (adds : cells surface) (s : shell) : option shell_view :=
  match see_layers hist adds (sh_nhv s) (sh_nadd s) (sh_layers s), l_strains (sh_layers s) with
  | Some ips, Some (i, o) =>
    Some {| w_ips := ips; w_inner := i; w_outer := o; w_bending := sh_bending s; w_shear := sh_shear s; w_normal := sh_normal s;
            w_thickness := sh_thickness s; w_vars := sh_vars s; w_energy := sh_energy s |}
  | _, _ => None
  end.
Definition shell_words (b : dbuf) (istrn : Z) : Z := ips_of b * ip_words b + 8 * ioshl (cval b IOSHL2) + 4 * ioshl (cval b IOSHL3) + 12 * stored1 istrn.
Definition shell_spec (b : dbuf) (istrn pos : Z) : shell_view :=
  let q := pos + ips_of b * ip_words b in
  let r := q + 8 * ioshl (cval b IOSHL2) in
  let s := r + 4 * ioshl (cval b IOSHL3) in
  {| w_ips := each (ips_of b) (fun j => surface_spec b (pos + j * ip_words b)); w_inner := group b (stored1 istrn) s 6; w_outer := group b (stored1 istrn) (s + 6) 6;
     w_bending := group b (ioshl (cval b IOSHL2)) q 3; w_shear := group b (ioshl (cval b IOSHL2)) (q + 3) 2; w_normal := group b (ioshl (cval b IOSHL2)) (q + 5) 3;
     w_thickness := single b (ioshl (cval b IOSHL3)) r; w_vars := group b (ioshl (cval b IOSHL3)) (r + 1) 2; w_energy := single b (ioshl (cval b IOSHL3)) (r + 3) |}.

(** ** Thick shells: mid, inner and outer surface, the strains if ISTRN = 1, further
    integration points. *)
Record thick_view : Type := { x_ips : list surface_view; x_inner : list Z; x_outer : list Z }.
Definition see_thick (hist : cells Z) (adds : cells surface) (s : thick_shell) : option thick_view :=
  match see_layers hist adds (ts_nhv s) (ts_nadd s) (ts_layers s), l_strains (ts_layers s) with
  | Some ips, Some (i, o) => Some {| x_ips := ips; x_inner := i; x_outer := o |}
  | _, _ => None
  end.
Definition thick_words (b : dbuf) (istrn : Z) : Z := ips_of b * ip_words b + 12 * stored1 istrn.
Definition thick_spec (b : dbuf) (istrn pos : Z) : thick_view :=
  {| x_ips := each (ips_of b) (fun j => surface_spec b (pos + j * ip_words b + (if j <? 3 then 0 else 12 * stored1 istrn)));
     x_inner := group b (stored1 istrn) (pos + 3 * ip_words b) 6; x_outer := group b (stored1 istrn) (pos + 3 * ip_words b + 6) 6 |}.

(** ** Beams: 6 resultants, 5 values per integration point, average, minimum and
    maximum of the NEIPB history variables, NEIPB history variables per point. *)
Record beam_view : Type := { y_resultants : list Z; y_ips : list (list Z * list Z); y_avg : list Z; y_min : list Z; y_max : list Z }.
Definition see_beam (ips : cells beam_ip) (hist : cells Z) (s : beam) : option beam_view :=
  match see ips (be_ips s) (be_nip s) with
  | None => None
  | Some l =>
    match all (map (fun p => match see hist (ip_hist p) (be_nhv s) with Some h => Some (ip_values p, h) | None => None end) l), see hist (be_avg s) (be_nhv s), see hist (be_min s) (be_nhv s), see hist (be_max s) (be_nhv s) with
    | Some l, Some a, Some m, Some x => Some {| y_resultants := be_resultants s; y_ips := l; y_avg := a; y_min := m; y_max := x |}
    | _, _, _, _ => None
    end
  end.
Definition beam_spec (b : dbuf) (nip pos : Z) : beam_view :=
  let h := cval b NEIPB in
  let q := pos + 6 + 5 * nip in
  {| y_resultants := nums b pos 6; y_ips := each nip (fun j => (nums b (pos + 6 + 5 * j) 5, nums b (q + 3 * h + j * h) h));
     y_avg := nums b q h; y_min := nums b (q + h) h; y_max := nums b (q + 2 * h) h |}.

(** ** Mean values *)
Section Mean.
Variables (fadd fdiv : Z -> Z -> Z) (of_int : Z -> Z).
Definition mean_of (xs : list Z) : Z := fdiv (fold_left fadd xs 0) (of_int (Z.of_nat (length xs))).
(** The mean of every value over the integration points. *)
Definition mean_view (nhv : nat) (ips : list surface_view) : list Z * Z * list Z :=
  (map (fun k => mean_of (map (fun v => nth k (v_sigma v) 0) ips)) (seq 0 6), mean_of (map v_plastic ips), map (fun k => mean_of (map (fun v => nth k (v_history v) 0) ips)) (seq 0 nhv)).
End Mean.
