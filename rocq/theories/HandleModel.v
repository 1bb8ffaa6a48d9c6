(** * Model of the handles dro::D3plot and dro::Binout, their exceptions and
    the strings they hand out

    Memory and objects are those of CppArrayModel.v and OwnModel.v.  What the
    files contain is modelled elsewhere (BinModel.v, D3Model.v, ...): here an
    operation is given what opening a file yields (how many files, which
    directory) and whether a read fails, and with which message.  Modelled is
    every block of memory a handle holds, who frees it, and who still points
    to it.  [sync_create], [fopen] and their counterparts are left out, so are
    further file handles which a read may open (the array grows by
    realloc).  Text is the list of its characters, without the terminator. *)
From Verif Require Import CBase CppArrayModel OwnModel CppTransformModel.

(** ** Files *)

(** multi_file.h (multi_file_t): path and array of handles. *)
Record mfile := { f_path : option ptr; f_handles : option ptr }.

(** multi_file.c:30-55 [multi_file_open] and the first [multi_file_access]
    (79-144). *)
Definition mfile_open (h : heap) : heap * mfile :=
  let '(h, p) := h_malloc h [] in let '(h, q) := h_malloc h [] in
  (h, {| f_path := Some p; f_handles := Some q |}).
Fixpoint mfiles_open (n : nat) (h : heap) : heap * list mfile :=
  match n with
  | O => (h, [])
  | S n => let '(h, f) := mfile_open h in let '(h, fs) := mfiles_open n h in (h, f :: fs)
  end.
(** multi_file.c:57-77 [multi_file_close] *)
Definition mfile_close (h : heap) (f : mfile) : res heap := h_free_all h [f_path f; f_handles f].
(** The loops d3_buffer.c:261-266 and binout.c:325-332: the entries are read
    from the array. *)
Fixpoint mfiles_close (h : heap) (arr : option ptr) (l : list mfile) : res heap :=
  match l with
  | [] => OK h
  | f :: t => do _ <- str_read h arr; do h <- mfile_close h f; mfiles_close h arr t
  end.

(** ** The d3plot handle *)

(** d3plot.h (d3plot_file) with its d3_buffer: the members that point to
    memory. *)
Record d3h := { d_files : option ptr; d_list : list mfile; d_buf_err : option ptr; d_root : option ptr;
  d_data : option ptr; d_err : option ptr; d_init : option ptr; d_init32 : option ptr }.

(** d3plot.cpp:62 [rhs.m_handle = {0}] *)
Definition d3_zero : d3h := {| d_files := None; d_list := []; d_buf_err := None; d_root := None;
  d_data := None; d_err := None; d_init := None; d_init32 := None |}.

(** d3_buffer.c:69-83, d3plot.c:54-78: what a successful [d3plot_open] of a
    family of [n] files holds; also a failed one ([fail]: the message), in
    which case the buffer may have failed, before there are data pointers. *)
Definition d3_open (h : heap) (n : nat) (buffer_failed : bool) (fail : option (list Z)) : heap * d3h :=
  let '(h, files) := h_malloc h [] in
  let '(h, root) := h_malloc h [] in
  let '(h, fs) := mfiles_open n h in
  let '(h, ps) := alloc_strings h [match fail with Some m => if buffer_failed then Some m else None | None => None end;
                                   match fail with Some _ => if buffer_failed then None else Some [] | None => Some [] end;
                                   fail] in
  (h, {| d_files := Some files; d_list := fs; d_buf_err := nth 0 ps None; d_root := Some root;
         d_data := nth 1 ps None; d_err := nth 2 ps None; d_init := None; d_init32 := None |}).

(** d3plot.c:468-482 [d3plot_close], d3_buffer.c:258-280 [d3_buffer_close]:
    the memory and the members afterwards. *)
Definition d3_close (h : heap) (a : d3h) : res (heap * d3h) :=
  do h <- mfiles_close h (d_files a) (d_list a);
  do h <- h_free_all h [d_files a; d_buf_err a; d_root a];
  do h <- h_free_all h [d_data a; d_err a; d_init a; d_init32 a];
  OK (h, {| d_files := None; d_list := []; d_buf_err := None; d_root := None;
            d_data := d_data a; d_err := None; d_init := d_init a; d_init32 := d_init32 a |}).

Definition d3_set_err (a : d3h) (e : option ptr) : d3h :=
  {| d_files := d_files a; d_list := d_list a; d_buf_err := d_buf_err a; d_root := d_root a;
     d_data := d_data a; d_err := e; d_init := d_init a; d_init32 := d_init32 a |}.

(** d3plot.c:685-760: the initial coordinates are kept ([c]: this read
    needs them; [c32]: the words are single precision). *)
Definition keep (h : heap) (p : option ptr) (b : bool) : heap * option ptr :=
  match p with Some _ => (h, p) | None => if b then let '(h, q) := h_malloc h [] in (h, Some q) else (h, None) end.
Definition d3_keep (h : heap) (a : d3h) (c c32 : bool) : heap * d3h :=
  let '(h, p) := keep h (d_init a) c in
  let '(h, q) := keep h (d_init32 a) (c && c32) in
  (h, {| d_files := d_files a; d_list := d_list a; d_buf_err := d_buf_err a; d_root := d_root a;
         d_data := d_data a; d_err := d_err a; d_init := p; d_init32 := q |}).

(** ** The binout handle *)

(** binout_directory.h (binout_entry_t): a variable or a folder, by name and
    array of children. *)
Inductive dent := DFile (name : option ptr) | DFolder (name arr : option ptr) (kids : list dent).
(** What the file contains. *)
Inductive tree := TFile (name : list Z) | TFolder (name : list Z) (kids : list tree).

(** binout.h (binout_file): the root directory's array and entries, the array
    of files and its entries, the error string. *)
Record binh := { b_arr : option ptr; b_dir : list dent; b_files : option ptr; b_list : list mfile; b_err : option ptr }.
(** binout.cpp:57 [rhs.m_handle = {0}] *)
Definition bin_zero : binh := {| b_arr := None; b_dir := []; b_files := None; b_list := []; b_err := None |}.

(** binout_directory.c:31-220: the entries; a folder without children has no
    array.  (The order of the allocations is the one of a walk, the code's is
    that of the records.) *)
Fixpoint dent_build (h : heap) (t : tree) {struct t} : heap * dent :=
  match t with
  | TFile n => let '(h, p) := h_malloc h n in (h, DFile (Some p))
  | TFolder n ks =>
    let '(h, p) := h_malloc h n in
    let '(h, q) := match ks with [] => (h, None) | _ => let '(h, q) := h_malloc h [] in (h, Some q) end in
    let '(h, es) := (fix go (h : heap) (ks : list tree) : heap * list dent := match ks with
                     | [] => (h, [])
                     | k :: t => let '(h, e) := dent_build h k in let '(h, es) := go h t in (h, e :: es)
                     end) h ks in
    (h, DFolder (Some p) q es)
  end.
Fixpoint dents_build (h : heap) (ks : list tree) : heap * list dent :=
  match ks with
  | [] => (h, [])
  | k :: t => let '(h, e) := dent_build h k in let '(h, es) := dents_build h t in (h, e :: es)
  end.

(** binout_directory.c:393-420 [binout_folder_free]; 377-384: a variable's
    name. *)
Fixpoint dent_free (h : heap) (d : dent) {struct d} : res heap :=
  match d with
  | DFile n => h_free_opt h n
  | DFolder n arr ks =>
    do h <- h_free_opt h n;
    match ks with
    | [] => OK h
    | _ =>
      do h <- (fix go (h : heap) (ks : list dent) : res heap := match ks with
               | [] => OK h
               | k :: t => do _ <- str_read h arr; do h <- dent_free h k; go h t
               end) h ks;
      h_free_opt h arr
    end
  end.
Fixpoint dents_free (h : heap) (arr : option ptr) (ks : list dent) : res heap :=
  match ks with
  | [] => OK h
  | k :: t => do _ <- str_read h arr; do h <- dent_free h k; dents_free h arr t
  end.

(** binout.c:61-320: a directory [ts], [n] files that were read, a message if
    some file was not. *)
Definition bin_open (h : heap) (ts : list tree) (n : nat) (fail : option (list Z)) : heap * binh :=
  let '(h, files) := match n with O => (h, None) | _ => let '(h, p) := h_malloc h [] in (h, Some p) end in
  let '(h, fs) := mfiles_open n h in
  let '(h, arr) := match ts with [] => (h, None) | _ => let '(h, p) := h_malloc h [] in (h, Some p) end in
  let '(h, es) := dents_build h ts in
  let '(h, ps) := alloc_strings h [fail] in
  (h, {| b_arr := arr; b_dir := es; b_files := files; b_list := fs; b_err := nth 0 ps None |}).

(** binout.c:322-346 [binout_close], binout_directory.c:371-391
    [binout_directory_free] *)
Definition bin_close (h : heap) (a : binh) : res (heap * binh) :=
  do h <- mfiles_close h (b_files a) (b_list a);
  do h <- dents_free h (b_arr a) (b_dir a);
  do h <- h_free_opt h (b_arr a);
  do h <- h_free_opt h (b_err a);
  OK (h, {| b_arr := None; b_dir := []; b_files := None; b_list := []; b_err := None |}).

Definition bin_set_err (a : binh) (e : option ptr) : binh :=
  {| b_arr := b_arr a; b_dir := b_dir a; b_files := b_files a; b_list := b_list a; b_err := e |}.

(** The entries of the directory, parents before their children. *)
Fixpoint dent_names (d : dent) : list (option ptr) :=
  match d with
  | DFile n => [n]
  | DFolder n _ ks => n :: flat_map dent_names ks
  end.

(** ** Strings *)

(** array.hpp:162-200, 425-445 (String): [m_data] and [m_delete_data].  A
    string literal is no block. *)
Inductive sdata := At (p : option ptr) | Lit (t : list Z).
Record sobj := { s_data : sdata; s_del : bool }.
Definition s_read (h : heap) (a : sobj) : res (list Z) :=
  match s_data a with At p => str_read h p | Lit t => OK t end.
(** String(const String&): strdup. *)
Definition s_copy (h : heap) (a : sobj) : res (heap * sobj) :=
  do t <- s_read h a; let '(h, p) := h_malloc h t in OK (h, {| s_data := At (Some p); s_del := true |}).
Definition s_moved : sobj := {| s_data := At None; s_del := false |}.
(** array.hpp:326-331 *)
Definition s_destroy (h : heap) (a : sobj) : res heap :=
  match s_data a with At p => if s_del a then h_free_opt h p else OK h | Lit _ => OK h end.

(** ** Programs *)

(** An exception is its string: D3plot::Exception and Binout::Exception have
    one const String.  Moving an exception therefore copies it ([CopyStr]). *)
Inductive obj := Plot (a : d3h) | Bin (a : binh) | Str (a : sobj).

Inductive hop :=
| OpenPlot (n : nat) (buffer_failed : bool) (r : option (list Z))   (* D3plot(path); r: fails with this message *)
| OpenBin (ts : list tree) (n : nat) (r : option (list Z))          (* Binout(path) *)
| Call (j : nat) (c c32 : bool) (r : option (list Z))               (* a read function of j *)
| Ask (j : nat) (r : option (list Z))                               (* Binout::get_children, simple_path_to_real *)
| Literal (j : nat) (t : list Z)                                    (* Binout::get_num_timesteps that fails *)
| Child (j n : nat)                                                 (* the String of an entry, from get_children *)
| What (j : nat)                                                    (* what() of an exception, str() of a String *)
| CopyStr (j : nat)
| MoveNew (j : nat)
| MoveTo (i j : nat)
| Destroy (j : nat).

Inductive hseen := HDone | HThrown | HText (t : list Z).

(** d3plot.cpp:45-56: the error string is taken from the handle, which is
    closed. *)
Definition plot_failed (h : heap) (a : d3h) : res (heap * sobj) :=
  do ' (h, _) <- d3_close h (d3_set_err a None);
  OK (h, {| s_data := At (d_err a); s_del := true |}).
(** binout.cpp:41-49, binout.c:411-420 *)
Definition bin_failed (h : heap) (a : binh) : res (heap * sobj) :=
  do ' (h, e) <- strdup_opt h (b_err a);
  do ' (h, _) <- bin_close h a;
  OK (h, {| s_data := At e; s_del := true |}).

(** The reads of a handle: the error string is freed (d3plot_error_macros.h:70,
    binout_defines.h:71), a failure sets a new one and the exception is a view
    of it (d3plot.cpp:68-70 and so on).  A D3plot needs its data pointers. *)
Definition fail_with (h : heap) (r : option (list Z)) : heap * option ptr :=
  let '(h, ps) := alloc_strings h [r] in (h, nth 0 ps None).
Definition call_plot (h : heap) (a : d3h) (c c32 : bool) (r : option (list Z)) : res (heap * d3h) :=
  do h <- h_free_opt h (d_err a);
  do _ <- str_read h (d_data a);
  let '(h, a) := d3_keep h a c c32 in
  let '(h, e) := fail_with h r in OK (h, d3_set_err a e).
Definition call_bin (h : heap) (a : binh) (r : option (list Z)) : res (heap * binh) :=
  do h <- h_free_opt h (b_err a);
  let '(h, e) := fail_with h r in OK (h, bin_set_err a e).

Definition obj_moved (o : obj) : obj :=
  match o with Plot _ => Plot d3_zero | Bin _ => Bin bin_zero | Str _ => Str s_moved end.
Definition same_class (o p : obj) : bool :=
  match o, p with Plot _, Plot _ => true | Bin _, Bin _ => true | Str _, Str _ => true | _, _ => false end.
Definition obj_destroy (h : heap) (o : obj) : res heap :=
  match o with
  | Plot a => do ' (h, _) <- d3_close h a; OK h
  | Bin a => do ' (h, _) <- bin_close h a; OK h
  | Str a => s_destroy h a
  end.
Definition view (p : option ptr) : obj := Str {| s_data := At p; s_del := false |}.

Definition thrown (s : store obj) (h : heap) (o : obj) : store obj * hseen := (new_obj s h o, HThrown).

(** An operation that needs another class does not compile ([UB]). *)
Definition hstep (s : store obj) (o : hop) : res (store obj * hseen) :=
  match o with
  | OpenPlot n bf r =>
    let '(h, a) := d3_open (st_heap s) n bf r in
    match r with
    | None => OK (new_obj s h (Plot a), HDone)
    | Some _ => do ' (h, e) <- plot_failed h a; OK (thrown s h (Str e))
    end
  | OpenBin ts n r =>
    let '(h, a) := bin_open (st_heap s) ts n r in
    match r with
    | None => OK (new_obj s h (Bin a), HDone)
    | Some _ => do ' (h, e) <- bin_failed h a; OK (thrown s h (Str e))
    end
  | Call j c c32 r => do o <- get_obj s j;
    match o with
    | Plot a => do ' (h, a) <- call_plot (st_heap s) a c c32 r;
      do s <- put_obj s h j (Some (Plot a));
      match r with None => OK (s, HDone) | Some _ => OK (thrown s h (view (d_err a))) end
    | Bin a => do ' (h, a) <- call_bin (st_heap s) a r;
      do s <- put_obj s h j (Some (Bin a));
      match r with None => OK (s, HDone) | Some _ => OK (thrown s h (view (b_err a))) end
    | Str _ => UB
    end
  | Ask j r => do o <- get_obj s j;
    match o, r with
    | Bin _, None => OK (s, HDone)
    | Bin _, Some m => let '(h, p) := h_malloc (st_heap s) m in OK (thrown s h (Str {| s_data := At (Some p); s_del := true |}))
    | _, _ => UB
    end
  | Literal j t => do o <- get_obj s j;
    match o with Bin _ => OK (thrown s (st_heap s) (Str {| s_data := Lit t; s_del := false |})) | _ => UB end
  | Child j n => do o <- get_obj s j;
    match o with
    | Bin a => do p <- aget (flat_map dent_names (b_dir a)) n; OK (new_obj s (st_heap s) (view p), HDone)
    | _ => UB
    end
  | What j => do o <- get_obj s j;
    match o with Str a => do t <- s_read (st_heap s) a; OK (s, HText t) | _ => UB end
  | CopyStr j => do o <- get_obj s j;
    match o with Str a => do ' (h, a) <- s_copy (st_heap s) a; OK (new_obj s h (Str a), HDone) | _ => UB end
  | MoveNew j => do o <- get_obj s j;
    do s <- put_obj s (st_heap s) j (Some (obj_moved o)); OK (new_obj s (st_heap s) o, HDone)
  | MoveTo i j => do o <- get_obj s j; do p <- get_obj s i;
    if same_class o p then
      do s <- put_obj s (st_heap s) i (Some o); do s <- put_obj s (st_heap s) j (Some (obj_moved o)); OK (s, HDone)
    else UB
  | Destroy j => do o <- get_obj s j; do h <- obj_destroy (st_heap s) o;
    do s <- put_obj s h j None; OK (s, HDone)
  end.
Definition hrun : store obj -> list hop -> res (store obj * list hseen) := exec hstep.
