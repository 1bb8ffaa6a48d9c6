(** * Model of the element state readers of /repo/src/d3plot.c

    Solids 1463-1648, thick shells 1650-1934, beams 1936-2241, shells 2243-2566;
    mean values: /repo/src/d3plot_state.c 335-466.

    The words of the elements are converted to double when they are read
    ([to_double]).  Groups that are read one after the other (word size 4) or with
    memcpy (word size 8) are read with [take].  The arrays for the history
    variables and the integration points of all elements are memory: [None] is a
    cell that was not written; a pointer into it is an index; access outside is UB.
    Not modelled: allocation failure (and with it the order in which memory is
    released) and the overflow of the sizes of allocations. *)
From Verif Require Import CBase BinModel D3BufModel D3Model D3ReadModel.
Open Scope Z_scope.

(** data[o], ..., data[o + n - 1] *)
Definition take (d : list Z) (o n : Z) : res (list Z) :=
  if (0 <=? o) && (o + n <=? Z.of_nat (length d)) then OK (firstn (Z.to_nat n) (skipn (Z.to_nat o) d)) else UB.
(** A group that is stored only if [w]; otherwise memset sets it to 0. *)
Definition take_if (w : bool) (d : list Z) (o n : Z) : res (list Z * Z) :=
  if w then do l <- take d o n; OK (l, o + n) else OK (repeat 0 (Z.to_nat n), o).
Definition one_if (w : bool) (d : list Z) (o : Z) : res (Z * Z) :=
  do ' (l, o) <- take_if w d o 1; OK (hd 0 l, o).

(** Memory: writing [l] at [off]. *)
Definition cells (A : Type) : Type := list (option A).
Definition store {A} (m : cells A) (off : Z) (l : list A) : res (cells A) :=
  if (0 <=? off) && (off + Z.of_nat (length l) <=? Z.of_nat (length m))
  then OK (firstn (Z.to_nat off) m ++ map Some l ++ skipn (Z.to_nat off + length l) m) else UB.
Definition fresh (A : Type) (n : Z) : cells A := repeat None (Z.to_nat n).

(** if (plot_file->control_data.istrn == v): an uninitialised value is UB. *)
Definition istrn_is (pl : plot) (v : Z) : res bool := match pl_istrn pl with Some x => OK (x =? v) | None => UB end.

(** The words of all elements of a type in a state. *)
Definition state_words_at (pl : plot) (num nv pos : Z) : res (plot * option (list Z)) :=
  do ' (pl, d) <- read_at pl (u64 (num * nv)) (u64 pos);
  OK (pl, match d with Some d => Some (map (to_double (d_ws (pl_buf pl))) d) | None => None end).

(** ** Solids *)
(** d3_defines.h:122-135 *)
Record solid : Type := { so_sigma : list Z; so_plastic : Z; so_epsilon : list Z }.
(** d3plot.c:1507-1559, 1588-1631 *)
Fixpoint solid_loop (io0 io1 strains : bool) (neiph : Z) (d : list Z) (n : nat) (o : Z) : res (list solid * Z) :=
  match n with
  | O => OK ([], o)
  | S n =>
    do ' (sg, o) <- take_if io0 d o 6;
    do ' (ps, o) <- one_if io1 d o;
    do ' (ep, _) <- take_if (strains && (6 <=? neiph)) d (u64 (o + neiph - 5 - 1)) 6;
    do ' (l, o) <- solid_loop io0 io1 strains neiph d n (u64 (o + neiph));
    OK ({| so_sigma := sg; so_plastic := ps; so_epsilon := ep |} :: l, o)
  end.
(** [None]: NULL, with an error unless there are no solids. *)
Definition read_solids_state (pl : plot) (state : nat) : res (plot * option (list solid)) :=
  let pl := clear pl in
  let num := u64 (pl_cd pl NEL8) in
  if num =? 0 then OK (pl, None) else
  match state_at pl state with
  | None => OK (fail pl P_state, None)
  | Some s =>
    do ' (pl, d) <- state_words_at pl (pl_cd pl NEL8) (pl_cd pl NV3D) (s + pl_ptr pl K_STATE_SOLID);
    match d with
    | None => OK (pl, None)
    | Some d =>
      do strains <- istrn_is pl 1;
      do ' (l, o) <- solid_loop (negb (pl_cd pl IOSOL0 =? 0)) (negb (pl_cd pl IOSOL1 =? 0)) strains (pl_cd pl NEIPH) d (Z.to_nat num) 0;
      if o =? u64 (pl_cd pl NEL8 * pl_cd pl NV3D) then OK (pl, Some l) else OK (fail pl P_sanity, None)
    end
  end.

(** ** Surfaces of shells and thick shells *)
(** d3_defines.h:138-151: [sf_hist] is the pointer to the history variables. *)
Record surface : Type := { sf_sigma : list Z; sf_plastic : Z; sf_hist : option Z }.
(** The members shells and thick shells have in common (d3_defines.h:163-179,
    197-224): [None] is uninitialised, [l_add = None] is NULL. *)
Record layers : Type := { l_mid : option surface; l_inner : option surface; l_outer : option surface; l_add : option Z; l_strains : option (list Z * list Z) }.
Definition no_layers : layers := {| l_mid := None; l_inner := None; l_outer := None; l_add := None; l_strains := None |}.
Definition with_strains (l : layers) (s : list Z * list Z) : layers :=
  {| l_mid := l_mid l; l_inner := l_inner l; l_outer := l_outer l; l_add := l_add l; l_strains := Some s |}.
(** num_integration_points, num_history_variables (both uint8_t), stress_written,
    plastic_strain_written *)
Record shape : Type := { nip : Z; nhv : Z; stress : bool; plastic : bool }.
Definition shape_of (pl : plot) : shape :=
  {| nip := u8 (pl_cd pl MAXINT); nhv := u8 (pl_cd pl NEIPS); stress := negb (pl_cd pl IOSHL0 =? 0); plastic := negb (pl_cd pl IOSHL1 =? 0) |}.

(** d3plot.c:1737-1767, 2328-2356 (1853-1882, 2468-2495): one integration point.
    [neips] is not truncated, but it is at most 255. *)
Definition surface_at (c : shape) (d : list Z) (hist : cells Z) (i j o : Z) : res (surface * cells Z * Z) :=
  do ' (sg, o) <- take_if (stress c) d o 6;
  do ' (ps, o) <- one_if (plastic c) d o;
  if nhv c =? 0 then OK ({| sf_sigma := sg; sf_plastic := ps; sf_hist := None |}, hist, o) else
  let off := i * nip c * nhv c + j * nhv c in
  do v <- take d o (nhv c);
  do hist <- store hist off v;
  OK ({| sf_sigma := sg; sf_plastic := ps; sf_hist := Some off |}, hist, o + nhv c).
(** d3plot.c:1717-1735, 2307-2326: the member or array element integration point
    [j] is written to. *)
Definition set_ip (c : shape) (i j : Z) (ip : surface) (l : layers) (adds : cells surface) : res (layers * cells surface) :=
  if j =? 0 then OK ({| l_mid := Some ip; l_inner := l_inner l; l_outer := l_outer l; l_add := l_add l; l_strains := l_strains l |}, adds)
  else if j =? 1 then OK ({| l_mid := l_mid l; l_inner := Some ip; l_outer := l_outer l; l_add := l_add l; l_strains := l_strains l |}, adds)
  else if j =? 2 then OK ({| l_mid := l_mid l; l_inner := l_inner l; l_outer := Some ip; l_add := l_add l; l_strains := l_strains l |}, adds)
  else
    let a := match l_add l with Some a => a | None => i * (nip c - 3) end in
    do adds <- store adds (a + (j - 3)) [ip];
    OK ({| l_mid := l_mid l; l_inner := l_inner l; l_outer := l_outer l; l_add := Some a; l_strains := l_strains l |}, adds).
(** inner_epsilon and outer_epsilon *)
Definition strains_at (w : bool) (d : list Z) (o : Z) : res (list Z * list Z * Z) :=
  do ' (l, o) <- take_if w d o 12; OK (firstn 6 l, skipn 6 l, o).
(** The loop over the integration points.  [after = Some w]: strains follow the
    integration point 2 (thick shells, d3plot.c:1769-1789), they are stored if [w]. *)
Fixpoint ips_loop (c : shape) (after : option bool) (d : list Z) (i : Z) (n : nat) (j : Z) (l : layers) (hist : cells Z) (adds : cells surface) (o : Z)
  : res (layers * cells Z * cells surface * Z) :=
  match n with
  | O => OK (l, hist, adds, o)
  | S n =>
    do ' (ip, hist, o) <- surface_at c d hist i j o;
    do ' (l, adds) <- set_ip c i j ip l adds;
    do ' (l, o) <- match after with
                   | Some w => if j =? 2 then do ' (e1, e2, o) <- strains_at w d o; OK (with_strains l (e1, e2), o) else OK (l, o)
                   | None => OK (l, o)
                   end;
    ips_loop c after d i n (j + 1) l hist adds o
  end.

(** ** Thick shells *)
Record thick_shell : Type := { ts_layers : layers; ts_nhv : Z; ts_nadd : Z }.
Fixpoint thick_loop (c : shape) (w : bool) (d : list Z) (n : nat) (i : Z) (hist : cells Z) (adds : cells surface) (o : Z) : res (list thick_shell * cells Z * cells surface * Z) :=
  match n with
  | O => OK ([], hist, adds, o)
  | S n =>
    do ' (l, hist, adds, o) <- ips_loop c (Some w) d i (Z.to_nat (nip c)) 0 no_layers hist adds o;
    do ' (r, hist, adds, o) <- thick_loop c w d n (i + 1) hist adds o;
    OK ({| ts_layers := l; ts_nhv := nhv c; ts_nadd := u8 (nip c - 3) |} :: r, hist, adds, o)
  end.
(** The result: the thick shells and the memory their pointers point into.
    Three groups of history variables are allocated per element (1678-1679). *)
Definition read_thick_shells_state (pl : plot) (state : nat) : res (plot * option (list thick_shell * cells Z * cells surface)) :=
  let pl := clear pl in
  let num := pl_cd pl NELT in
  if num =? 0 then OK (pl, None) else
  match state_at pl state with
  | None => OK (fail pl P_state, None)
  | Some s =>
    let c := shape_of pl in
    do w <- istrn_is pl 1;
    do ' (pl, d) <- state_words_at pl num (pl_cd pl NV3DT) (s + pl_ptr pl K_STATE_THICK_SHELL);
    match d with
    | None => OK (pl, None)
    | Some d =>
      do ' (l, hist, adds, o) <- thick_loop c w d (Z.to_nat num) 0 (fresh Z (num * 3 * nhv c)) (fresh surface ((nip c - 3) * num)) 0;
      if o =? u64 (num * pl_cd pl NV3DT) then OK (pl, Some (l, hist, adds)) else OK (fail pl P_sanity, None)
    end
  end.

(** ** Shells *)
Record shell : Type := {
  sh_layers : layers; sh_bending : list Z; sh_shear : list Z; sh_normal : list Z;
  sh_thickness : Z; sh_vars : list Z; sh_energy : Z; sh_nhv : Z; sh_nadd : Z }.
(** d3plot.c:2300-2409, 2441-2543.  Strains: zero if ISTRN is 0, stored if it is 1,
    not written otherwise. *)
Fixpoint shell_loop (c : shape) (forces energies : bool) (istrn : Z) (d : list Z) (n : nat) (i : Z) (hist : cells Z) (adds : cells surface) (o : Z)
  : res (list shell * cells Z * cells surface * Z) :=
  match n with
  | O => OK ([], hist, adds, o)
  | S n =>
    do ' (l, hist, adds, o) <- ips_loop c None d i (Z.to_nat (nip c)) 0 no_layers hist adds o;
    do ' (f, o) <- take_if forces d o 8;
    do ' (t, o) <- take_if energies d o 4;
    do ' (l, o) <- if istrn =? 0 then OK (with_strains l (repeat 0 6, repeat 0 6), o)
                   else if istrn =? 1 then do ' (e1, e2, o) <- strains_at true d o; OK (with_strains l (e1, e2), o)
                   else OK (l, o);
    do ' (r, hist, adds, o) <- shell_loop c forces energies istrn d n (i + 1) hist adds o;
    OK ({| sh_layers := l; sh_bending := firstn 3 f; sh_shear := firstn 2 (skipn 3 f); sh_normal := skipn 5 f;
           sh_thickness := hd 0 t; sh_vars := firstn 2 (skipn 1 t); sh_energy := hd 0 (skipn 3 t); sh_nhv := nhv c; sh_nadd := u8 (nip c - 3) |} :: r, hist, adds, o)
  end.
Definition read_shells_state (pl : plot) (state : nat) : res (plot * option (list shell * cells Z * cells surface)) :=
  let pl := clear pl in
  let num := pl_cd pl NEL4 in
  if num =? 0 then OK (pl, None) else
  match state_at pl state with
  | None => OK (fail pl P_state, None)
  | Some s =>
    let c := shape_of pl in
    do ' (pl, d) <- state_words_at pl num (pl_cd pl NV2D) (s + pl_ptr pl K_STATE_SHELL);
    match d with
    | None => OK (pl, None)
    | Some d =>
      match pl_istrn pl with
      | None => UB
      | Some is =>
        do ' (l, hist, adds, o) <- shell_loop c (negb (pl_cd pl IOSHL2 =? 0)) (negb (pl_cd pl IOSHL3 =? 0)) is d (Z.to_nat num) 0
                                     (fresh Z (nhv c * nip c * num)) (fresh surface ((nip c - 3) * num)) 0;
        if o =? u64 (num * pl_cd pl NV2D) then OK (pl, Some (l, hist, adds)) else OK (fail pl P_sanity, None)
      end
    end
  end.

(** ** Beams *)
(** d3_defines.h:153-161, 181-195; [be_ips], [be_avg], [be_min], [be_max] and
    [ip_hist] are pointers.  malloc(0) may or may not be NULL: the pointers to
    history variables are not observable if there are none. *)
Record beam_ip : Type := { ip_values : list Z; ip_hist : Z }.
Record beam : Type := { be_resultants : list Z; be_ips : Z; be_avg : Z; be_min : Z; be_max : Z; be_nhv : Z; be_nip : Z }.
(** d3plot.c:2030-2040, 2169-2182: the five stresses and strains of the points. *)
Fixpoint beam_values (d : list Z) (n : nat) (o : Z) : res (list (list Z) * Z) :=
  match n with
  | O => OK ([], o)
  | S n => do v <- take d o 5; do ' (l, o) <- beam_values d n (o + 5); OK (v :: l, o)
  end.
(** d3plot.c:2064-2083, 2199-2213: the history variables of the points; writing an
    integration point is modelled once it is complete. *)
Fixpoint beam_ips (nip nhv i : Z) (d : list Z) (vs : list (list Z)) (j : Z) (ips : cells beam_ip) (hist : cells Z) (o : Z) : res (cells beam_ip * cells Z * Z) :=
  match vs with
  | [] => OK (ips, hist, o)
  | v :: vs =>
    let off := i * nip * nhv + j * nhv in
    do h <- take d o nhv;
    do hist <- store hist off h;
    do ips <- store ips (i * nip + j) [{| ip_values := v; ip_hist := off |}];
    beam_ips nip nhv i d vs (j + 1) ips hist (o + nhv)
  end.
Fixpoint beam_loop (nip nhv avg : Z) (d : list Z) (n : nat) (i : Z) (ips : cells beam_ip) (hist : cells Z) (o : Z) : res (list beam * cells beam_ip * cells Z * Z) :=
  match n with
  | O => OK ([], ips, hist, o)
  | S n =>
    let at_ (k : Z) := avg + i * 3 * nhv + k * nhv in
    do r <- take d o 6;
    do ' (vs, o) <- beam_values d (Z.to_nat nip) (o + 6);
    do h0 <- take d o nhv; do hist <- store hist (at_ 0) h0;
    do h1 <- take d (o + nhv) nhv; do hist <- store hist (at_ 1) h1;
    do h2 <- take d (o + nhv + nhv) nhv; do hist <- store hist (at_ 2) h2;
    do ' (ips, hist, o) <- beam_ips nip nhv i d vs 0 ips hist (o + nhv + nhv + nhv);
    do ' (l, ips, hist, o) <- beam_loop nip nhv avg d n (i + 1) ips hist o;
    OK ({| be_resultants := r; be_ips := i * nip; be_avg := at_ 0; be_min := at_ 1; be_max := at_ 2; be_nhv := nhv; be_nip := nip |} :: l, ips, hist, o)
  end.
Definition read_beams_state (pl : plot) (state : nat) : res (plot * option (list beam * cells beam_ip * cells Z)) :=
  let pl := clear pl in
  let num := pl_cd pl NEL2 in
  if num =? 0 then OK (pl, None) else
  match state_at pl state with
  | None => OK (fail pl P_state, None)
  | Some s =>
    if (255 <? pl_cd pl NEIPB) || (255 <? pl_cd pl BEAMIP) then OK (fail pl P_beam, None) else
    let nip := u8 (pl_cd pl BEAMIP) in
    let nhv := u8 (pl_cd pl NEIPB) in
    do ' (pl, d) <- state_words_at pl num (pl_cd pl NV1D) (s + pl_ptr pl K_STATE_BEAM);
    match d with
    | None => OK (pl, None)
    | Some d =>
      do ' (l, ips, hist, o) <- beam_loop nip nhv (num * nip * nhv) d (Z.to_nat num) 0 (fresh beam_ip (num * nip)) (fresh Z (num * nhv * (3 + nip))) 0;
      if o =? u64 (pl_cd pl NV1D * num) then OK (pl, Some (l, ips, hist)) else OK (fail pl P_sanity, None)
    end
  end.

(** ** Mean values over the integration points (d3plot_state.c:335-466) *)
(** Reading cells that were not written is UB. *)
Fixpoint written {A} (l : cells A) : res (list A) :=
  match l with
  | [] => OK []
  | Some x :: r => do t <- written r; OK (x :: t)
  | None :: _ => UB
  end.
Definition load {A} (m : cells A) (off n : Z) : res (list A) :=
  if (0 <=? off) && (off + n <=? Z.of_nat (length m)) then written (firstn (Z.to_nat n) (skipn (Z.to_nat off) m)) else UB.
Definition init {A} (x : option A) : res A := match x with Some x => OK x | None => UB end.
(** d3plot_state.c:349-364, 417-431 *)
Definition ip_at (l : layers) (adds : cells surface) (j : nat) : res surface :=
  match j with
  | O => init (l_mid l)
  | 1%nat => init (l_inner l)
  | 2%nat => init (l_outer l)
  | S (S (S k)) => do a <- init (l_add l); do s <- load adds (a + Z.of_nat k) 1; aget s 0
  end.
Fixpoint add_all (fadd : Z -> Z -> Z) (a b : list Z) : list Z :=
  match a, b with x :: a, y :: b => fadd x y :: add_all fadd a b | _, _ => [] end.
Fixpoint mean_loop (fadd : Z -> Z -> Z) (l : layers) (nhv : Z) (hist : cells Z) (adds : cells surface) (n j : nat) (sg : list Z) (ps : Z) (hv : list Z) : res (list Z * Z * list Z) :=
  match n with
  | O => OK (sg, ps, hv)
  | S n =>
    do ip <- ip_at l adds j;
    do h <- if nhv =? 0 then OK [] else do off <- init (sf_hist ip); load hist off nhv;
    mean_loop fadd l nhv hist adds n (S j) (add_all fadd sg (sf_sigma ip)) (fadd ps (sf_plastic ip)) (add_all fadd hv h)
  end.
(** [fadd], [fdiv], [of_int]: the addition and division of doubles and the
    conversion of an integer. *)
Definition get_mean (fadd fdiv : Z -> Z -> Z) (of_int : Z -> Z) (l : layers) (nhv nadd : Z) (hist : cells Z) (adds : cells surface) : res (list Z * Z * list Z) :=
  let n := 3 + nadd in
  do ' (sg, ps, hv) <- mean_loop fadd l nhv hist adds (Z.to_nat n) 0 (repeat 0 6) 0 (repeat 0 (Z.to_nat nhv));
  let mean x := fdiv x (of_int n) in
  OK (map mean sg, mean ps, map mean hv).
Definition get_shell_mean fadd fdiv of_int (s : shell) := get_mean fadd fdiv of_int (sh_layers s) (sh_nhv s) (sh_nadd s).
Definition get_thick_shell_mean fadd fdiv of_int (s : thick_shell) := get_mean fadd fdiv of_int (ts_layers s) (ts_nhv s) (ts_nadd s).
