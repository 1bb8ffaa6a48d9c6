(** * Model of the memory of element states: /repo/src/d3plot.c 1650-2566, 3385-3420

    The readers of D3ElemModel.v again, with their calls of malloc and free;
    the functions that free their results.  Memory is that of
    CppArrayModel.v.  [malloc] of 0 bytes returns a block, as glibc does;
    [malloc] of (size_t)-1 * x bytes returns NULL.  The block of an array of
    structs only counts the structs, the structs themselves are carried with
    the result: nothing writes to them after the reader has returned.
    history_variables and additional_integration_points are blocks of their
    own, a pointer of a struct is an offset into one of them. *)
From Verif Require Import CBase BinModel D3BufModel D3Model D3ReadModel D3ElemModel CppArrayModel OwnModel.
Open Scope Z_scope.

(** malloc for [n] elements. *)
Definition room (n : Z) : list Z := malloc (Z.to_nat n).

(** What a reader of shells or thick shells returns. *)
Record elems (A : Type) : Type := {
  el_structs : list A; el_hists : cells Z; el_adds : cells surface;
  el_block : ptr;          (* the array of the structs *)
  el_hist : ptr;           (* history_variables *)
  el_add : option ptr }.   (* additional_integration_points *)
Arguments el_structs {A}. Arguments el_hists {A}. Arguments el_adds {A}. Arguments el_block {A}. Arguments el_hist {A}. Arguments el_add {A}.

(** d3plot.c:1681-1683, 2275-2276: with fewer than three integration points the
    size is negative, converted to size_t. *)
Definition malloc_adds (h : heap) (c : shape) (num : Z) : heap * option ptr :=
  if nip c <? 3 then (h, None) else let '(h, p) := h_malloc h (room ((nip c - 3) * num)) in (h, Some p).
(** What the loops have written to history_variables ([store] of D3ElemModel.v
    on the cells, all at once). *)
Definition number (c : option Z) : Z := match c with Some x => x | None => JUNK end.
Definition fill (h : heap) (p : ptr) (l : cells Z) : res heap := aset h (fst p) (Some (map number l)).

(** d3plot.c:2243-2566 [d3plot_read_shells_state] *)
Definition read_shells_mem (h : heap) (pl : plot) (state : nat) : res (heap * plot * option (elems shell)) :=
  let pl := clear pl in
  let num := pl_cd pl NEL4 in
  if num =? 0 then OK (h, pl, None) else
  match state_at pl state with
  | None => OK (h, fail pl P_state, None)
  | Some s =>
    let c := shape_of pl in
    let '(h, hist) := h_malloc h (room (nhv c * nip c * num)) in
    let '(h, add) := malloc_adds h c num in
    let '(h, block) := h_malloc h (room num) in
    let '(h, data) := h_malloc h (room (num * pl_cd pl NV2D)) in
    do ' (pl, d) <- state_words_at pl num (pl_cd pl NV2D) (s + pl_ptr pl K_STATE_SHELL);
    match d with
    | None =>
      (* 2288-2297 free less than 2426-2437 *)
      do h <- h_free_all h (if d_ws (pl_buf pl) =? 4 then [Some data; Some block] else [Some data; Some block; Some hist; add]);
      OK (h, pl, None)
    | Some d =>
      match pl_istrn pl with
      | None => UB
      | Some is =>
        do ' (l, hs, ads, o) <- shell_loop c (negb (pl_cd pl IOSHL2 =? 0)) (negb (pl_cd pl IOSHL3 =? 0)) is d (Z.to_nat num) 0
                                  (fresh Z (nhv c * nip c * num)) (fresh surface ((nip c - 3) * num)) 0;
        do h <- fill h hist hs;
        do h <- h_free h data;
        if o =? u64 (num * pl_cd pl NV2D)
        then OK (h, pl, Some {| el_structs := l; el_hists := hs; el_adds := ads; el_block := block; el_hist := hist; el_add := add |})
        else do h <- h_free_all h [Some block; Some hist; add]; OK (h, fail pl P_sanity, None)
      end
    end
  end.

(** d3plot.c:1650-1934 [d3plot_read_thick_shells_state] *)
Definition read_thick_shells_mem (h : heap) (pl : plot) (state : nat) : res (heap * plot * option (elems thick_shell)) :=
  let pl := clear pl in
  let num := pl_cd pl NELT in
  if num =? 0 then OK (h, pl, None) else
  match state_at pl state with
  | None => OK (h, fail pl P_state, None)
  | Some s =>
    let c := shape_of pl in
    do w <- istrn_is pl 1;
    let '(h, hist) := h_malloc h (room (num * 3 * nhv c)) in
    let '(h, add) := malloc_adds h c num in
    let '(h, block) := h_malloc h (room num) in
    let '(h, data) := h_malloc h (room (num * pl_cd pl NV3DT)) in
    do ' (pl, d) <- state_words_at pl num (pl_cd pl NV3DT) (s + pl_ptr pl K_STATE_THICK_SHELL);
    match d with
    | None => do h <- h_free_all h [Some data; Some block; Some hist; add]; OK (h, pl, None)
    | Some d =>
      do ' (l, hs, ads, o) <- thick_loop c w d (Z.to_nat num) 0 (fresh Z (num * 3 * nhv c)) (fresh surface ((nip c - 3) * num)) 0;
      do h <- fill h hist hs;
      do h <- h_free h data;
      if o =? u64 (num * pl_cd pl NV3DT)
      then OK (h, pl, Some {| el_structs := l; el_hists := hs; el_adds := ads; el_block := block; el_hist := hist; el_add := add |})
      else do h <- h_free_all h [Some block; Some hist; add]; OK (h, fail pl P_sanity, None)
    end
  end.

(** What the reader of beams returns. *)
Record beams_mem : Type := {
  bm_structs : list beam; bm_ips : cells beam_ip; bm_hists : cells Z;
  bm_block : ptr; bm_ip : ptr; bm_hist : ptr }.

(** d3plot.c:1936-2241 [d3plot_read_beams_state]: 1996-2003, 2085-2098 and the
    same for word size 8 free the array of the beams only. *)
Definition read_beams_mem (h : heap) (pl : plot) (state : nat) : res (heap * plot * option beams_mem) :=
  let pl := clear pl in
  let num := pl_cd pl NEL2 in
  if num =? 0 then OK (h, pl, None) else
  match state_at pl state with
  | None => OK (h, fail pl P_state, None)
  | Some s =>
    if (255 <? pl_cd pl NEIPB) || (255 <? pl_cd pl BEAMIP) then OK (h, fail pl P_beam, None) else
    let nip := u8 (pl_cd pl BEAMIP) in
    let nhv := u8 (pl_cd pl NEIPB) in
    let '(h, ip) := h_malloc h (room (num * nip)) in
    let '(h, hist) := h_malloc h (room (num * nhv * (3 + nip))) in
    let '(h, block) := h_malloc h (room num) in
    let '(h, data) := h_malloc h (room (num * pl_cd pl NV1D)) in
    do ' (pl, d) <- state_words_at pl num (pl_cd pl NV1D) (s + pl_ptr pl K_STATE_BEAM);
    match d with
    | None => do h <- h_free_all h [Some data; Some block]; OK (h, pl, None)
    | Some d =>
      do ' (l, ips, hs, o) <- beam_loop nip nhv (num * nip * nhv) d (Z.to_nat num) 0 (fresh beam_ip (num * nip)) (fresh Z (num * nhv * (3 + nip))) 0;
      do h <- fill h hist hs;
      do h <- h_free h data;
      if o =? u64 (pl_cd pl NV1D * num)
      then OK (h, pl, Some {| bm_structs := l; bm_ips := ips; bm_hists := hs; bm_block := block; bm_ip := ip; bm_hist := hist |})
      else do h <- h_free_all h [Some block]; OK (h, fail pl P_sanity, None)
    end
  end.

(** The pointers of the structs. *)
Definition at_off (b : ptr) (off : Z) : ptr := (fst b, (snd b + Z.to_nat off)%nat).
Definition surface_hist {A} (e : elems A) (s : surface) : option ptr := option_map (at_off (el_hist e)) (sf_hist s).
Definition struct_adds {A} (e : elems A) (l : layers) : option ptr :=
  match l_add l, el_add e with Some off, Some b => Some (at_off b off) | _, _ => None end.

(** d3plot.c:3385-3395 [d3plot_free_shells_state], 3397-3407
    [d3plot_free_thick_shells_state]; [None]: NULL.  Only the first struct is
    looked at; reading a member that was not set is UB. *)
Definition free_elems {A} (layers_of : A -> layers) (h : heap) (e : option (elems A)) : res heap :=
  match e with
  | None => OK h
  | Some e =>
    do _ <- h_read h (Some (el_block e)) 0;
    do x <- aget (el_structs e) 0;
    do mid <- init (l_mid (layers_of x));
    h_free_all h [surface_hist e mid; struct_adds e (layers_of x); Some (el_block e)]
  end.
Definition free_shells_state := free_elems sh_layers.
Definition free_thick_shells_state := free_elems ts_layers.

(** d3plot.c:3409-3420 [d3plot_free_beams_state]; malloc never returned NULL
    for the integration points, so that beams->ips is not NULL. *)
Definition free_beams_state (h : heap) (e : option beams_mem) : res heap :=
  match e with
  | None => OK h
  | Some e =>
    do _ <- h_read h (Some (bm_block e)) 0;
    do x <- aget (bm_structs e) 0;
    let ips := at_off (bm_ip e) (be_ips x) in
    do _ <- h_read h (Some ips) 0;
    do ip <- aget (bm_ips e) (snd ips);
    do ip <- init ip;
    h_free_all h [Some (at_off (bm_hist e) (ip_hist ip)); Some ips; Some (bm_block e)]
  end.
