(** * Proofs about the memory of the binout readers *)
From Coq Require Import Sorting.Permutation.
From Verif Require Import CBase CBaseFacts PathModel BinDirModel BinModel TimedModel CppArrayModel OwnModel KeyMemProofs ReadMemModel ReadMemSpec ReadMemProofs ReadRoomProofs BinMemModel BinMemSpec.
Open Scope nat_scope.

Lemma alike_same {X A B} (x : res X) (f : X -> res A) (g : X -> res B) R : (forall a, x = OK a -> alike (f a) (g a) R) -> alike (bind x f) (bind x g) R.
Proof. intros H. destruct x; cbn; auto. Qed.
Lemma alike_bind {X Y A B} (x : res X) (y : res Y) (f : X -> res A) (g : Y -> res B) (Q : X -> Y -> Prop) R :
  alike x y Q -> (forall a c, Q a c -> alike (f a) (g c) R) -> alike (bind x f) (bind y g) R.
Proof. intros H K. destruct x, y; cbn in *; try contradiction; auto. Qed.
Lemma alike_right {A B} (x : res A) (y : res B) (R Q : A -> B -> Prop) : alike x y R -> (forall a b, R a b -> Q a b) -> alike x y Q.
Proof. intros H K. destruct x, y; cbn in *; auto. Qed.

Lemma clear_ok h0 h e ps : leaves h0 h (e :: ps) -> exists h', clear_error h e = OK (h', None) /\ leaves h0 h' (None :: ps).
Proof. intros L. destruct (leaves_free_opt _ _ _ _ L) as (h' & E & L'). exists h'. unfold clear_error. rewrite E. split; [reflexivity|]. apply -> leaves_none. exact L'. Qed.
Lemma new_error_ok h0 h e m ps : leaves h0 h (e :: ps) ->
  alike (error_string m) (new_error h e m) (fun m' c => m' = m /\ snd c <> None /\ leaves h0 (fst c) (snd c :: ps)).
Proof.
  intros L. unfold new_error, error_string. destruct (length m <? 1024); [|exact I]. cbn [bind].
  destruct (leaves_free_opt _ _ _ _ L) as (h' & E & L'). rewrite E. cbn [bind]. unfold string_clone_mem. mal L'. cbn. split; [reflexivity|]. split; [discriminate|exact M].
Qed.
Lemma get_type_id_mem_ok h0 h e b path ps : leaves h0 h (e :: ps) -> alike (get_type_id b path) (get_type_id_mem h e b path) (gives_type h0 ps).
Proof.
  intros L. unfold get_type_id, get_type_id_mem. destruct (clear_ok _ _ _ _ L) as (h1 & E & L1). rewrite E. cbn [bind].
  apply alike_same. intros pv _. apply alike_same. intros f _.
  assert (F : alike (do e <- error_string (bs """" ++ path ++ bs """ has not been found"); OK (255%Z, Some e))
    (do ' (h, e) <- new_error h1 None (bs """" ++ path ++ bs """ has not been found"); OK (h, e, (255%Z, Some (bs """" ++ path ++ bs """ has not been found")))) (gives_type h0 ps)).
  { eapply alike_bind; [apply new_error_ok, L1|]. intros m' [h2 e2] (-> & N & L2). cbn in *. split; [reflexivity|]. split; [|exact L2]. unfold null_iff. cbn. split; [intros; contradiction|discriminate]. }
  destruct f as [[n vt size fi pos|n sub]|]; [|exact F|exact F]. cbn. split; [reflexivity|]. split; [unfold null_iff; cbn; tauto|exact L1].
Qed.
Lemma get_children_mem_ok h0 h e b path ps : leaves h0 h (e :: ps) -> alike (binout_get_children b path) (get_children_mem h b path) (gives_children h0 e ps).
Proof.
  intros L. unfold binout_get_children, get_children_mem. apply alike_same. intros pv _. apply alike_same. intros [cs|] _.
  - mal L. cbn. split; [reflexivity|]. split; [unfold null_iff; split; discriminate|]. eapply leaves_perm; [|exact M]. apply perm_swap.
  - cbn. split; [reflexivity|]. split; [unfold null_iff; tauto|]. apply (leaves_perm h0 h (None :: e :: ps)); [apply perm_swap|]. apply -> leaves_none. exact L.
Qed.
Lemma open_error_mem_ok h0 h e m ps : leaves h0 h (e :: ps) -> exists h' p, open_error_mem h m = (h', p) /\ null_iff p m /\ leaves h0 h' (e :: p :: ps).
Proof.
  intros L. destruct m as [m|]; cbn [open_error_mem].
  - unfold string_clone_mem. mal L. eexists. eexists. split; [reflexivity|]. split; [split; discriminate|]. eapply leaves_perm; [|exact M]. apply perm_swap.
  - exists h, None. split; [reflexivity|]. split; [unfold null_iff; tauto|]. apply (leaves_perm h0 h (None :: e :: ps)); [apply perm_swap|]. apply -> leaves_none. exact L.
Qed.
Lemma leaves_null h0 h e ps : leaves h0 h (e :: ps) -> leaves h0 h (e :: None :: ps).
Proof. intros L. apply (leaves_perm h0 h (None :: e :: ps)); [apply perm_swap|]. apply -> leaves_none. exact L. Qed.
Lemma read_fails_ok h0 h e old m ps : leaves h0 h (e :: ps) -> alike (read_fails old m) (read_fails_mem h e old m) (gives_read h0 ps).
Proof.
  intros L. unfold read_fails, read_fails_mem. eapply alike_bind; [apply new_error_ok, L|]. intros m' [h2 e2] (-> & N & L2). cbn in *.
  split; [reflexivity|]. split; [split; [intros; contradiction|discriminate]|]. split; [unfold null_iff; cbn; tauto|]. apply leaves_null, L2.
Qed.
Lemma binout_read_mem_ok h0 h e b old path t ps : leaves h0 h (e :: ps) -> alike (binout_read b old path t) (binout_read_mem h e b old path t) (gives_read h0 ps).
Proof.
  intros L. unfold binout_read, binout_read_mem. destruct (clear_ok _ _ _ _ L) as (h1 & E & L1). rewrite E. cbn [bind].
  apply alike_same. intros pv _. apply alike_same. intros f _. destruct f as [[n vt size fi pos|n sub]|]; try (apply read_fails_ok; exact L1).
  destruct (negb _); [apply read_fails_ok; exact L1|]. destruct (size =? 0)%Z; [apply read_fails_ok; exact L1|].
  apply alike_same. intros [[why|bytes]|] _; [apply read_fails_ok; exact L1| |exact I]. destruct (fseek_to pos) as [p|]; [|apply read_fails_ok; exact L1].
  mal L1. destruct (fread bytes p size 1) as [[vs np]|].
  - cbn. split; [reflexivity|]. split; [unfold null_iff; cbn; tauto|]. split; [split; discriminate|]. eapply leaves_perm; [|exact M]. apply perm_swap.
  - destruct (leaves_free _ _ _ _ M) as (h3 & E3 & L3). rewrite E3. cbn [bind]. apply read_fails_ok. exact L3.
Qed.

(** ** Timed *)
Lemma timed_path_free_ok nodes : forall h0 h ps, leaves h0 h (map Some nodes ++ ps) -> exists h', timed_path_free h nodes = OK h' /\ leaves h0 h' ps.
Proof.
  induction nodes as [|n r IH]; intros h0 h ps L; [exists h; auto|]. cbn [timed_path_free].
  destruct (IH h0 h (Some n :: ps)) as (h1 & E & L1). { eapply leaves_perm; [|exact L]. cbn [map app]. apply Permutation_middle. }
  rewrite E. cbn [bind]. destruct (leaves_free _ _ _ _ L1) as (h2 & E2 & L2). exists h2. auto.
Qed.
Lemma search_d_mem_ok fuel : forall h0 h cur pv ps, leaves h0 h ps ->
  alike (search_d fuel cur pv) (search_d_mem fuel h cur pv) (fun r m => snd m = r /\ leaves h0 (fst (fst m)) (map Some (snd (fst m)) ++ ps)).
Proof.
  induction fuel as [|f IH]; intros h0 h cur pv ps L; [exact I|]. cbn [search_d search_d_mem]. destruct (num_children cur =? 0)%Z; [cbn; auto|].
  apply alike_same. intros [i|] _.
  - apply alike_same. intros [n vt size fi pos|n sub] _; swap 1 2.
    + mal L. destruct (path_view_advance pv) as [[pv' more]| |]; cbn [bind alike]; auto. destruct (negb more); [cbn; auto|].
      eapply alike_bind; [apply (IH h0 h1 (Folder n sub) pv' (Some q :: ps) M)|]. intros r [[h2 tp] r'] (Er & L2). cbn in *. subst r'. split; [reflexivity|].
      eapply leaves_perm; [|exact L2]. apply Permutation_sym, Permutation_middle.
    + apply alike_same. intros [pv' more] _. cbn. destruct more; auto.
  - apply alike_same. intros [pv' more] _. destruct (negb more); [cbn; auto|]. apply IH. exact L.
Qed.
(** A search: an error is new, a result leaves none. *)
Definition searched (h0 : heap) (ps : list (option ptr)) (s : cstr + list entry * list nat)
  (m : heap * option ptr * list ptr * (cstr + list entry * list nat)) : Prop :=
  let '(h, e, nodes, s') := m in s' = s /\ leaves h0 h (map Some nodes ++ e :: ps) /\ match s with inl m => e <> None /\ error_string m = OK m | inr _ => e = None end.
Definition with_string (s : cstr + list entry * list nat) : res (cstr + list entry * list nat) :=
  match s with inl m => do m <- error_string m; OK (inl m) | inr r => OK (inr r) end.
Lemma search_fails_ok h0 h nodes m ps : leaves h0 h (map Some nodes ++ None :: ps) -> alike (with_string (inl m)) (search_fails h None nodes m) (searched h0 ps).
Proof.
  intros L. unfold search_fails, with_string. assert (L' : leaves h0 h (None :: map Some nodes ++ ps)) by (eapply leaves_perm; [|exact L]; apply Permutation_sym, Permutation_middle).
  pose proof (new_error_ok h0 h None m _ L') as A. unfold error_string in *. destruct (length m <? 1024) eqn:El; destruct (new_error h None m) as [[h2 e2]| |]; cbn in A |- *; try contradiction; auto.
  destruct A as (_ & N & L2). split; [reflexivity|]. split; [eapply leaves_perm; [|exact L2]; apply Permutation_middle|]. split; [exact N|]. unfold error_string. rewrite El. reflexivity.
Qed.
Lemma with_bind {X} (x : res X) f : bind (bind x f) with_string = bind x (fun a => bind (f a) with_string).
Proof. destruct x; reflexivity. Qed.
Lemma search_timed_loop_mem_ok fuel : forall h0 h variable cs pv ps, leaves h0 h (None :: ps) ->
  alike (do s <- search_timed_loop fuel variable cs pv; with_string s) (search_timed_loop_mem fuel h None variable cs pv) (searched h0 ps).
Proof.
  induction fuel as [|f IH]; intros h0 h variable cs pv ps L; [exact I|]. cbn [search_timed_loop search_timed_loop_mem].
  rewrite with_bind. apply alike_same. intros [pv' more] _. destruct (negb more); [apply search_fails_ok; exact L|].
  destruct cs as [|c0 cs]; [apply search_fails_ok; exact L|]. set (l := c0 :: cs). clearbody l. rewrite with_bind. apply alike_same. intros [i|] _.
  - rewrite with_bind. apply alike_same. intros [n vt size fi pos|n sub] _; [|apply IH; exact L]. rewrite with_bind. apply alike_same. intros [pv2 more2] _. apply search_fails_ok. exact L.
  - rewrite with_bind. apply alike_same. intros [d|] _; [|apply search_fails_ok; exact L]. rewrite with_bind.
    eapply alike_bind; [apply search_d_mem_ok, L|]. intros tp [[h2 nodes] tp'] (Et & L2). cbn in Et, L2. subst tp'. destruct tp as [tp|]; [|apply search_fails_ok; exact L2].
    cbn. auto.
Qed.
Lemma search_timed_mem_ok h0 h e b variable ps : leaves h0 h (e :: ps) ->
  alike (do s <- search_timed b variable; with_string s) (search_timed_mem h e b variable) (searched h0 ps).
Proof.
  intros L. unfold search_timed, search_timed_mem. destruct (clear_ok _ _ _ _ L) as (h1 & E & L1). rewrite E. cbn [bind]. destruct (b_dir b) as [|c0 cs]; [apply search_fails_ok; exact L1|].
  set (l := c0 :: cs). clearbody l. rewrite with_bind. apply alike_same. intros pv _. rewrite with_bind. apply alike_same. intros [pv' more] _.
  destruct (negb more); [apply search_fails_ok; exact L1|]. rewrite with_bind. apply alike_same. intros [i|] _; [|apply search_fails_ok; exact L1].
  rewrite with_bind. apply alike_same. intros [n vt size fi pos|n sub] _; [apply search_fails_ok; exact L1|apply search_timed_loop_mem_ok; exact L1].
Qed.
Lemma timed_fails_ok h0 h e vs st m ps : leaves h0 h (e :: ps) -> alike (timed_fails vs st m) (timed_fails_mem h e vs st m) (gives_timed h0 ps).
Proof.
  intros L. unfold timed_fails, timed_fails_mem. eapply alike_bind; [apply new_error_ok, L|]. intros m' [h2 e2] (-> & N & L2). cbn in *.
  split; [reflexivity|]. split; [split; [intros; contradiction|discriminate]|]. split; [unfold null_iff; cbn; tauto|]. apply leaves_null, L2.
Qed.
Lemma step_fails_ok h0 h nodes p vs st m ps : leaves h0 h (Some p :: map Some nodes ++ None :: ps) ->
  alike (timed_fails vs st m) (step_fails_mem h None nodes p vs st m) (gives_timed h0 ps).
Proof.
  intros L. unfold step_fails_mem. destruct (leaves_free _ _ _ _ L) as (h1 & E1 & L1). rewrite E1. cbn [bind]. destruct (timed_path_free_ok _ _ _ _ L1) as (h2 & E2 & L2). rewrite E2. cbn [bind].
  apply timed_fails_ok. exact L2.
Qed.
Lemma read_steps_mem_ok b variable vs st tp name ds : forall h0 h nodes p k data ps, leaves h0 h (Some p :: map Some nodes ++ None :: ps) ->
  alike (read_steps b variable vs st tp name ds k data) (read_steps_mem h None nodes p b variable vs st tp name ds k data) (gives_timed h0 ps).
Proof.
  induction ds as [|d r IH]; intros h0 h nodes p k data ps L; cbn [read_steps read_steps_mem].
  - destruct (timed_path_free_ok nodes h0 h (Some p :: None :: ps)) as (h2 & E2 & L2). { eapply leaves_perm; [|exact L]. apply Permutation_middle. }
    rewrite E2. cbn. split; [reflexivity|]. split; [unfold null_iff; cbn; tauto|]. split; [split; discriminate|]. eapply leaves_perm; [|exact L2]. apply perm_swap.
  - apply alike_same. intros [[n vt size fi pos|n sub]|] _; [|exact I|apply step_fails_ok; exact L].
    apply alike_same. intros [[why|bytes]|] _; [apply step_fails_ok; exact L| |exact I]. destruct (fseek_to pos) as [q|]; [|apply step_fails_ok; exact L].
    cbv zeta. apply alike_same. intros data' _. destruct (fread bytes q size 1); [apply IH; exact L|apply step_fails_ok; exact L].
Qed.
Lemma read_timed_mem_ok h0 h e b variable vs st t ps : leaves h0 h (e :: ps) ->
  alike (read_timed b variable vs st t) (read_timed_mem h e b variable vs st t) (gives_timed h0 ps).
Proof.
  intros L. unfold read_timed, read_timed_mem. pose proof (search_timed_mem_ok h0 h e b variable ps L) as S0.
  destruct (search_timed b variable) as [[m|[cs tp]]| |]; cbn [bind with_string] in S0 |- *.
  - unfold timed_fails. destruct (error_string m) as [m'| |] eqn:Em; cbn [bind] in S0 |- *;
      (destruct (search_timed_mem h e b variable) as [[[[h1 e1] nodes] s1]| |]; cbn [alike searched bind] in S0 |- *; try contradiction; auto).
    destruct S0 as (-> & L1 & N & Em2). destruct (timed_path_free_ok _ _ _ _ L1) as (h2 & E2 & L2). rewrite E2. cbn.
    split; [reflexivity|]. split; [split; [intros; contradiction|discriminate]|]. split; [unfold null_iff; cbn; tauto|]. apply leaves_null, L2.
  - destruct (search_timed_mem h e b variable) as [[[[h1 e1] nodes] s1]| |]; cbn [alike searched bind] in S0 |- *; try contradiction.
    destruct S0 as (-> & L1 & ->). apply alike_same. intros start _. apply alike_same. intros end_ _. apply alike_same. intros first _. apply alike_same. intros [[n vt size fi pos|n sub]|] _; try exact I.
    cbv zeta. destruct (size / type_size t =? 0)%Z.
    + destruct (timed_path_free_ok _ _ _ _ L1) as (h2 & E2 & L2). rewrite E2. cbn [bind]. apply timed_fails_ok. exact L2.
    + mal L1. apply read_steps_mem_ok. exact M.
  - destruct (search_timed_mem h e b variable) as [[[[h1 e1] nodes] s1]| |]; cbn [alike bind] in S0 |- *; try contradiction; auto.
  - destruct (search_timed_mem h e b variable) as [[[[h1 e1] nodes] s1]| |]; cbn [alike bind] in S0 |- *; try contradiction; auto.
Qed.

(** ** The real path *)
Lemma append_ok h0 h p s t ps : leaves h0 h (p :: ps) -> exists h' q, append_mem h p s t = OK (h', Some q) /\ leaves h0 h' (Some q :: ps).
Proof. intros L. destruct (leaves_realloc h0 h ps p (Z.of_nat (length s + length t + 1)) L) as (h' & q & E & L'). exists h', q. unfold append_mem. rewrite E. cbn. auto. Qed.
Lemma appends_ok ts : forall h0 h p s ps, leaves h0 h (Some p :: ps) -> exists h' q, appends_mem h (Some p) s ts = OK (h', Some q) /\ leaves h0 h' (Some q :: ps).
Proof.
  induction ts as [|t r IH]; intros h0 h p s ps L; [exists h, p; auto|]. cbn [appends_mem]. destruct (append_ok _ _ (Some p) s t _ L) as (h1 & q & E & L1). rewrite E. cbn [bind]. exact (IH _ _ _ _ _ L1).
Qed.
Definition gives_path (h0 : heap) (ps : list (option ptr)) (r : simple_result) (m : heap * simple_result * option ptr) : Prop :=
  let '(h, r', p) := m in r' = r /\ null_iff p r /\ leaves h0 h (p :: ps).
Lemma no_path_ok h0 h p ps : leaves h0 h (p :: ps) -> alike (OK None) (no_path h p) (gives_path h0 ps).
Proof. intros L. unfold no_path. destruct (leaves_free_opt _ _ _ _ L) as (h' & E & L'). rewrite E. cbn. split; [reflexivity|]. split; [unfold null_iff; tauto|]. apply -> leaves_none. exact L'. Qed.
Lemma simple_loop_mem_ok fuel : forall h0 h p cs real timed pv ps, leaves h0 h (Some p :: ps) ->
  alike (simple_loop fuel cs real timed pv) (simple_loop_mem fuel h (Some p) cs real timed pv) (gives_path h0 ps).
Proof.
  induction fuel as [|f IH]; intros h0 h p cs real timed pv ps L; [exact I|]. cbn [simple_loop simple_loop_mem].
  apply alike_same. intros [pv' more] _. destruct (negb more); [cbn; split; [reflexivity|]; split; [split; discriminate|exact L]|].
  destruct cs as [|c0 cs]; [apply no_path_ok; exact L|]. set (l := c0 :: cs). clearbody l. cbv zeta.
  set (en := fun (e : entry) (prefix : cstr) (timed : bool) => let real := real ++ prefix ++ [SEP] ++ ename e in
    match e with
    | File _ vt _ _ _ => do '(_, more) <- path_view_advance pv'; if more then OK None else OK (Some (real, vt, timed))
    | Folder _ sub => simple_loop f sub real timed pv'
    end).
  set (en2 := fun (e : entry) (prefix : list cstr) (timed : bool) => let ts := prefix ++ [[SEP]; ename e] in
    match e with
    | File _ vt _ _ _ => do '(_, more) <- path_view_advance pv'; if more then no_path h (Some p)
      else do ' (h, p) <- appends_mem h (Some p) real ts; OK (h, Some (real ++ concat ts, vt, timed), p)
    | Folder _ sub => do ' (h, p) <- appends_mem h (Some p) real ts; simple_loop_mem f h p sub (real ++ concat ts) timed pv'
    end).
  assert (En : forall e prefix timed, alike (en e (concat prefix) timed) (en2 e prefix timed) (gives_path h0 ps)).
  { intros e prefix timed'. unfold en, en2. cbv zeta. assert (Q : real ++ concat prefix ++ [SEP] ++ ename e = real ++ concat (prefix ++ [[SEP]; ename e])).
    { rewrite concat_app. cbn [concat]. rewrite app_nil_r. reflexivity. }
    rewrite Q. destruct (appends_ok (prefix ++ [[SEP]; ename e]) h0 h p real ps L) as (h1 & q & E & L1). destruct e as [n vt size fi pos|n sub]; swap 1 2.
    - rewrite E. cbn [bind]. apply IH. exact L1.
    - apply alike_same. intros [pv2 more2] _. destruct more2; [apply no_path_ok; exact L|]. rewrite E. cbn. split; [reflexivity|]. split; [split; discriminate|exact L1]. }
  apply alike_same. intros [i|] _.
  - apply alike_same. intros e _. exact (En e [] timed).
  - apply alike_same. intros md _. apply alike_same. intros [e|] _; [exact (En e [[SEP]; bs "metadata"] timed)|].
    apply alike_same. intros d _. apply alike_same. intros [e|] _; [exact (En e [] true)|apply no_path_ok; exact L].
Qed.
Lemma simple_mem_path h0 h b simple ps : leaves h0 h ps -> alike (simple_path_to_real b simple) (simple_path_to_real_mem h b simple) (gives_path h0 ps).
Proof.
  intros L. unfold simple_path_to_real, simple_path_to_real_mem. apply alike_same. intros pv _.
  destruct (append_ok h0 h None [] [SEP] ps) as (h1 & q & E & L1); [apply -> leaves_none; exact L|]. rewrite E. cbn [bind].
  apply alike_same. intros abs _. apply alike_same. intros [pv' more] _. destruct (negb more); [cbn; split; [reflexivity|]; split; [split; discriminate|exact L1]|].
  destruct (b_dir b) as [|c0 cs]; [apply no_path_ok; exact L1|]. set (l := c0 :: cs). clearbody l. apply alike_same. intros [i|] _; [|apply no_path_ok; exact L1].
  apply alike_same. intros e _. destruct (append_ok h0 h1 (Some q) [SEP] (ename e) ps L1) as (h2 & q2 & E2 & L2). destruct e as [n vt size fi pos|n sub]; swap 1 2.
  - rewrite E2. cbn [bind]. apply simple_loop_mem_ok. exact L2.
  - apply alike_same. intros [pv2 more2] _. destruct more2; [apply no_path_ok; exact L1|]. rewrite E2. cbn. split; [reflexivity|]. split; [split; discriminate|exact L2].
Qed.
Lemma simple_mem_ok h0 h e b simple ps : leaves h0 h (e :: ps) -> alike (simple_path_to_real b simple) (simple_path_to_real_mem h b simple) (gives_real h0 e ps).
Proof.
  intros L. eapply alike_right; [apply simple_mem_path, L|]. intros r [[h' r'] p] (-> & N & L'). split; [reflexivity|]. split; [exact N|]. eapply leaves_perm; [|exact L']. apply perm_swap.
Qed.

(** ** The client *)
Definition client_ok (h0 : heap) (got : nat) (c : bin_client) : Prop := leaves h0 (bc_heap c) (bc_ptr c :: bc_results c) /\ null_iff (bc_ptr c) (bc_error c) /\ length (bc_results c) = got.
Lemma leaves_last h0 h e p l : leaves h0 h (e :: p :: l) -> leaves h0 h (e :: l ++ [p]).
Proof. intros L. eapply leaves_perm; [|exact L]. apply perm_skip, Permutation_cons_append. Qed.
Lemma client_step b h0 k r : forall c got, client_ok h0 got c -> calls_ok b got (k :: r) ->
  exists c' got', bin_step b c k = OK c' /\ client_ok h0 got' c' /\ calls_ok b got' r.
Proof.
  intros c got (L & N & G) C. assert (G1 : forall p : option ptr, length (bc_results c ++ [p]) = S got) by (intros p; rewrite app_length, G; cbn; lia).
  destruct k as [path|path|path t|path t|path| |n]; cbn [calls_ok bin_step] in C |- *.
  - destruct C as ((v & E) & C). pose proof (get_type_id_mem_ok h0 _ _ b path _ L) as A. rewrite E in A. destruct (get_type_id_mem _ _ _ _) as [[[h1 e1] [z m]]| |]; cbn in A; try contradiction.
    destruct A as (<- & N1 & L1). cbn [bind]. eexists. exists (S got). split; [reflexivity|]. split; [|exact C]. split; [apply leaves_last, leaves_null, L1|]. split; [exact N1|apply G1].
  - destruct C as ((v & E) & C). pose proof (get_children_mem_ok h0 _ _ b path _ L) as A. rewrite E in A. destruct (get_children_mem _ _ _) as [[[h1 z] p]| |]; cbn in A; try contradiction.
    destruct A as (_ & _ & L1). cbn [bind]. eexists. exists (S got). split; [reflexivity|]. split; [|exact C]. split; [apply leaves_last, L1|]. split; [exact N|apply G1].
  - destruct C as ((v & E) & C). pose proof (binout_read_mem_ok h0 _ _ b 0 path t _ L) as A. rewrite E in A. destruct (binout_read_mem _ _ _ _ _ _) as [[[[h1 e1] z] p]| |]; cbn in A; try contradiction.
    destruct A as (-> & N1 & _ & L1). cbn [bind]. eexists. exists (S got). split; [reflexivity|]. split; [|exact C]. split; [apply leaves_last, L1|]. split; [exact N1|apply G1].
  - destruct C as ((v & E) & C). pose proof (read_timed_mem_ok h0 _ _ b path 0 0 t _ L) as A. rewrite E in A. destruct (read_timed_mem _ _ _ _ _ _ _) as [[[[h1 e1] z] p]| |]; cbn in A; try contradiction.
    destruct A as (-> & N1 & _ & L1). cbn [bind]. eexists. exists (S got). split; [reflexivity|]. split; [|exact C]. split; [apply leaves_last, L1|]. split; [exact N1|apply G1].
  - destruct C as ((v & E) & C). pose proof (simple_mem_ok h0 _ _ b path _ L) as A. rewrite E in A. destruct (simple_path_to_real_mem _ _ _) as [[[h1 z] p]| |]; cbn in A; try contradiction.
    destruct A as (_ & _ & L1). cbn [bind]. eexists. exists (S got). split; [reflexivity|]. split; [|exact C]. split; [apply leaves_last, L1|]. split; [exact N|apply G1].
  - destruct (open_error_mem_ok h0 _ _ (bc_error c) _ L) as (h1 & p & E & _ & L1). rewrite E. eexists. exists (S got). split; [reflexivity|]. split; [|exact C]. split; [apply leaves_last, L1|]. split; [exact N|apply G1].
  - destruct C as (Lt & C). destruct (nth_error (bc_results c) n) as [p|] eqn:En; [|apply nth_error_None in En; lia]. rewrite (proj2 (aget_OK _ _ _) En). cbn [bind].
    destruct (nth_error_split _ _ En) as (l1 & l2 & El & Ln).
    assert (P : Permutation (bc_ptr c :: bc_results c) (p :: bc_ptr c :: l1 ++ l2)). { rewrite El. eapply perm_trans; [|apply perm_swap]. apply perm_skip, Permutation_sym, Permutation_middle. }
    destruct (leaves_free_opt _ _ _ _ (leaves_perm _ _ _ _ P L)) as (h1 & E1 & L1). rewrite E1. cbn [bind].
    assert (Ea : aset (bc_results c) n None = OK (l1 ++ None :: l2)). { rewrite El, <- Ln. clear. induction l1 as [|x l1 IH]; cbn; [reflexivity|]. unfold aset in *. cbn in *. rewrite IH. reflexivity. }
    rewrite Ea. cbn [bind]. eexists. exists got. split; [reflexivity|]. split; [|exact C]. split; [|split; [exact N|cbn; rewrite <- G, El, !app_length; reflexivity]].
    cbn. apply (leaves_perm h0 h1 (bc_ptr c :: None :: l1 ++ l2)); [apply perm_skip, Permutation_middle|]. apply leaves_null, L1.
Qed.
Lemma client_run b h0 ks : forall c got, client_ok h0 got c -> calls_ok b got ks -> exists c' got', bin_run b c ks = OK c' /\ client_ok h0 got' c'.
Proof.
  induction ks as [|k r IH]; intros c got O C; [exists c, got; auto|]. destruct (client_step b h0 k r c got O C) as (c1 & g1 & E & O1 & C1). cbn [bin_run]. rewrite E. cbn [bind]. exact (IH _ _ O1 C1).
Qed.

(** ** The sizes of the returned blocks *)
Lemma fread_size data p size v q : (0 <= p)%Z -> fread data p size 1 = Some (v, q) -> length v = Z.to_nat size.
Proof.
  intros P. unfold fread. cbn [Z.eqb]. destruct (_ && _) eqn:E; [|discriminate]. apply andb_true_iff in E as (E1 & E2). apply Z.ltb_lt in E1. apply Z.leb_le in E2.
  intros Q. injection Q as <- _. rewrite firstn_length, skipn_length. lia.
Qed.
Lemma seek_pos z p : fseek_to z = Some p -> (0 <= p)%Z.
Proof. unfold fseek_to. destruct (_ && _) eqn:E; [|discriminate]. intros Q. injection Q as <-. apply andb_true_iff in E as (E & _). lia. Qed.
Lemma memcpy_len {A} (dst : list A) d src s n r : memcpy dst d src s n = OK r -> length r = length dst.
Proof.
  unfold memcpy. destruct (_ && _) eqn:E; [|discriminate]. apply andb_true_iff in E as (E1 & E2). apply Nat.leb_le in E1, E2. intros Q. injection Q as <-.
  rewrite !app_length, !firstn_length, !skipn_length. lia.
Qed.
Lemma read_fails_none h e old m h' e' r p : read_fails_mem h e old m = OK (h', e', r, p) -> p = None.
Proof. unfold read_fails_mem. destruct (new_error h e m) as [[h1 e1]| |]; cbn [bind]; try discriminate. intros E. injection E as _ _ _ <-. reflexivity. Qed.
Lemma binout_read_room h e b old path t h' e' r p v : binout_read_mem h e b old path t = OK (h', e', r, Some p) -> r_data r = Some v -> room h' p (length v).
Proof.
  unfold binout_read_mem. destruct (clear_error h e) as [[h1 e1]| |]; cbn [bind]; try discriminate. destruct (path_view_new path) as [pv| |]; cbn [bind]; try discriminate.
  destruct (directory_get_file _ _) as [f| |]; cbn [bind]; try discriminate.
  assert (F : forall h e m, read_fails_mem h e old m = OK (h', e', r, Some p) -> r_data r = Some v -> room h' p (length v)) by (intros h2 e2 m E; apply read_fails_none in E; discriminate).
  destruct f as [[n vt size fi pos|n sub]|]; try exact (F _ _ _). destruct (negb _); [apply F|]. destruct (size =? 0)%Z; [apply F|].
  destruct (aget _ _) as [[[why|bytes]|]| |]; cbn [bind]; try discriminate; [apply F|]. destruct (fseek_to pos) as [q|] eqn:Es; [|apply F].
  mcase. unfold malloc in M. rewrite repeat_length in M. destruct (fread bytes q size 1) as [[vs np]|] eqn:Ef.
  - intros E D. injection E as <- <- <- <-. cbn in D. injection D as <-. rewrite (fread_size _ _ _ _ _ (seek_pos _ _ Es) Ef). exact M.
  - destruct (h_free _ _); cbn [bind]; try discriminate. apply F.
Qed.
Lemma free_path_room nodes : forall h h' q n, timed_path_free h nodes = OK h' -> (forall x, In x nodes -> fst q <> fst x) -> room h q n -> room h' q n.
Proof.
  induction nodes as [|x r IH]; intros h h' q n E Ne R; cbn [timed_path_free] in E; [injection E as <-; exact R|].
  destruct (timed_path_free h r) as [h1| |] eqn:E1; cbn [bind] in E; try discriminate. apply (room_free _ _ _ _ _ E); [apply Ne; left; reflexivity|].
  apply (IH _ _ _ _ E1); [intros y I; apply Ne; right; exact I|exact R].
Qed.
Lemma timed_fails_none h e vs st m h' e' r p : timed_fails_mem h e vs st m = OK (h', e', r, p) -> p = None.
Proof. unfold timed_fails_mem. destruct (new_error h e m) as [[h1 e1]| |]; cbn [bind]; try discriminate. intros E. injection E as _ _ _ <-. reflexivity. Qed.
Lemma step_fails_none h e nodes q vs st m h' e' r p : step_fails_mem h e nodes q vs st m = OK (h', e', r, p) -> p = None.
Proof. unfold step_fails_mem. destruct (h_free _ _); cbn [bind]; try discriminate. destruct (timed_path_free _ _); cbn [bind]; try discriminate. apply timed_fails_none. Qed.
Lemma read_steps_room b variable vs st tp name ds : forall h e nodes q k data h' e' r p v, (forall x, In x nodes -> fst q <> fst x) -> room h q (length data) ->
  read_steps_mem h e nodes q b variable vs st tp name ds k data = OK (h', e', r, Some p) -> t_data r = Some v -> room h' p (length v).
Proof.
  induction ds as [|d ds IH]; intros h e nodes q k data h' e' r p v Ne R; cbn [read_steps_mem].
  - destruct (timed_path_free h nodes) as [h1| |] eqn:E1; cbn [bind]; try discriminate. intros E D. injection E as <- <- <- <-. cbn in D. injection D as <-. exact (free_path_room _ _ _ _ _ E1 Ne R).
  - assert (F : forall m, step_fails_mem h e nodes q vs st m = OK (h', e', r, Some p) -> t_data r = Some v -> room h' p (length v)) by (intros m E; apply step_fails_none in E; discriminate).
    destruct (open_timed_path d tp (Some name)) as [[[n vt size fi pos|n sub]|]| |]; cbn [bind]; try discriminate; [|apply F].
    destruct (aget _ _) as [[[why|bytes]|]| |]; cbn [bind]; try discriminate; [apply F|]. destruct (fseek_to pos) as [x|]; [|apply F]. cbv zeta.
    destruct (memcpy data _ _ _ _) as [data'| |] eqn:Em; cbn [bind]; try discriminate. destruct (fread bytes x size 1); [|apply F]. apply IH; [exact Ne|]. rewrite (memcpy_len _ _ _ _ _ _ Em). exact R.
Qed.
Lemma read_timed_room h0 h e b variable vs st t ps h' e' r p v : leaves h0 h (e :: ps) ->
  read_timed_mem h e b variable vs st t = OK (h', e', r, Some p) -> t_data r = Some v -> room h' p (length v).
Proof.
  intros L. unfold read_timed_mem. pose proof (search_timed_mem_ok h0 h e b variable ps L) as S0.
  destruct (search_timed_mem h e b variable) as [[[[h1 e1] nodes] [m|[cs tp]]]| |]; cbn [bind]; try discriminate.
  - destruct (timed_path_free h1 nodes); cbn [bind]; discriminate.
  - destruct (do s <- search_timed b variable; with_string s) as [s| |]; cbn [alike searched] in S0; try contradiction. destruct S0 as (_ & L1 & _).
    destruct (first_d cs 0); cbn [bind]; try discriminate. destruct (last_d _ _); cbn [bind]; try discriminate. destruct (aget _ _); cbn [bind]; try discriminate.
    destruct (open_timed_path _ _ _) as [[[n vt size fi pos|n sub]|]| |]; cbn [bind]; try discriminate. cbv zeta. destruct (_ =? 0)%Z.
    + destruct (timed_path_free h1 nodes); cbn [bind]; try discriminate. intros E. apply timed_fails_none in E. discriminate.
    + mcase. apply read_steps_room; [|exact M]. intros x I Q. destruct L1 as (_ & B & Cc & _). assert (Ib : In (fst x) (blocks (map Some nodes ++ e1 :: ps))).
      { rewrite blocks_app, in_app_iff. left. clear - I. induction nodes as [|y r IH]; [contradiction|]. destruct I as [->|I]; [left; reflexivity|right; apply IH; exact I]. }
      assert (Al : alive h1 (fst x)) by (apply B; [apply Cc|]; exact Ib). apply alive_len in Al. lia.
Qed.

(** ** The sizes of the blocks of texts *)
Lemma string_clone_room h s : room (fst (string_clone_mem h s)) (snd (string_clone_mem h s)) (length s + 1).
Proof. unfold string_clone_mem. pose proof (malloc_room h (malloc (length s + 1))) as R. unfold malloc in R at 3. rewrite repeat_length in R. exact R. Qed.
Lemma new_error_text h e m h' e' : new_error h e m = OK (h', e') -> holds_text h' e' m.
Proof.
  unfold new_error, error_string. destruct (_ <? _); cbn [bind]; try discriminate. destruct (h_free_opt h e) as [h1| |]; cbn [bind]; try discriminate.
  pose proof (string_clone_room h1 m) as R. destruct (string_clone_mem h1 m) as [h2 q]. intros E. injection E as <- <-. exists q. split; [reflexivity|exact R].
Qed.
Lemma type_id_text h e b path h' e' t m : get_type_id_mem h e b path = OK (h', e', (t, Some m)) -> holds_text h' e' m.
Proof.
  unfold get_type_id_mem. destruct (clear_error h e) as [[h1 e1]| |]; cbn [bind]; try discriminate. destruct (path_view_new path) as [pv| |]; cbn [bind]; try discriminate.
  destruct (directory_get_file _ _) as [[[]|]| |]; cbn [bind]; try discriminate; destruct (new_error h1 e1 _) as [[h2 e2]| |] eqn:E; cbn [bind]; try discriminate;
    intros Q; injection Q as <- <- <- <-; exact (new_error_text _ _ _ _ _ E).
Qed.
Lemma open_error_text h m : holds_text (fst (open_error_mem h (Some m))) (snd (open_error_mem h (Some m))) m.
Proof. cbn [open_error_mem]. pose proof (string_clone_room h m) as R. destruct (string_clone_mem h m) as [h2 q]. exists q. split; [reflexivity|exact R]. Qed.
Lemma read_fails_text h e old x h' e' r p m : read_fails_mem h e old x = OK (h', e', r, p) -> r_error r = Some m -> holds_text h' e' m.
Proof. unfold read_fails_mem. destruct (new_error h e x) as [[h1 e1]| |] eqn:N; cbn [bind]; try discriminate. intros E D. injection E as <- <- <- <-. injection D as <-. exact (new_error_text _ _ _ _ _ N). Qed.
Lemma read_text h e b old path t h' e' r p m : binout_read_mem h e b old path t = OK (h', e', r, p) -> r_error r = Some m -> holds_text h' e' m.
Proof.
  unfold binout_read_mem. destruct (clear_error h e) as [[h1 e1]| |]; cbn [bind]; try discriminate. destruct (path_view_new path) as [pv| |]; cbn [bind]; try discriminate.
  destruct (directory_get_file _ _) as [f| |]; cbn [bind]; try discriminate.
  assert (F : forall h e x, read_fails_mem h e old x = OK (h', e', r, p) -> r_error r = Some m -> holds_text h' e' m) by (intros; eapply read_fails_text; eauto).
  destruct f as [[n vt size fi pos|n sub]|]; try exact (F _ _ _). destruct (negb _); [apply F|]. destruct (size =? 0)%Z; [apply F|].
  destruct (aget _ _) as [[[why|bytes]|]| |]; cbn [bind]; try discriminate; [apply F|]. destruct (fseek_to pos) as [q|]; [|apply F].
  destruct (h_malloc _ _) as [h2 q2]. destruct (fread bytes q size 1) as [[vs np]|].
  - intros E D. injection E as <- <- <- <-. discriminate.
  - destruct (h_free _ _); cbn [bind]; try discriminate. apply F.
Qed.
Lemma timed_fails_text h e vs st x h' e' r p m : timed_fails_mem h e vs st x = OK (h', e', r, p) -> t_error r = Some m -> holds_text h' e' m.
Proof. unfold timed_fails_mem. destruct (new_error h e x) as [[h1 e1]| |] eqn:N; cbn [bind]; try discriminate. intros E D. injection E as <- <- <- <-. injection D as <-. exact (new_error_text _ _ _ _ _ N). Qed.
Lemma step_fails_text h e nodes q vs st x h' e' r p m : step_fails_mem h e nodes q vs st x = OK (h', e', r, p) -> t_error r = Some m -> holds_text h' e' m.
Proof. unfold step_fails_mem. destruct (h_free _ _); cbn [bind]; try discriminate. destruct (timed_path_free _ _); cbn [bind]; try discriminate. apply timed_fails_text. Qed.
Lemma read_steps_text b variable vs st tp name ds : forall h e nodes q k data h' e' r p m,
  read_steps_mem h e nodes q b variable vs st tp name ds k data = OK (h', e', r, p) -> t_error r = Some m -> holds_text h' e' m.
Proof.
  induction ds as [|d ds IH]; intros h e nodes q k data h' e' r p m; cbn [read_steps_mem].
  - destruct (timed_path_free h nodes) as [h1| |]; cbn [bind]; try discriminate. intros E D. injection E as <- <- <- <-. discriminate.
  - assert (F : forall x, step_fails_mem h e nodes q vs st x = OK (h', e', r, p) -> t_error r = Some m -> holds_text h' e' m) by (intros; eapply step_fails_text; eauto).
    destruct (open_timed_path d tp (Some name)) as [[[n vt size fi pos|n sub]|]| |]; cbn [bind]; try discriminate; [|apply F].
    destruct (aget _ _) as [[[why|bytes]|]| |]; cbn [bind]; try discriminate; [apply F|]. destruct (fseek_to pos) as [x|]; [|apply F]. cbv zeta.
    destruct (memcpy data _ _ _ _) as [data'| |]; cbn [bind]; try discriminate. destruct (fread bytes x size 1); [|apply F]. apply IH.
Qed.
Lemma search_fails_text h e nodes x h' e' nodes' m : search_fails h e nodes x = OK (h', e', nodes', inl m) -> holds_text h' e' m.
Proof. unfold search_fails. destruct (new_error h e x) as [[h1 e1]| |] eqn:N; cbn [bind]; try discriminate. intros E. injection E as <- <- <- <-. exact (new_error_text _ _ _ _ _ N). Qed.
Lemma search_loop_text fuel : forall h e variable cs pv h' e' nodes m, search_timed_loop_mem fuel h e variable cs pv = OK (h', e', nodes, inl m) -> holds_text h' e' m.
Proof.
  induction fuel as [|f IH]; intros h e variable cs pv h' e' nodes m; [discriminate|]. cbn [search_timed_loop_mem].
  assert (F : forall h e nodes1 x, search_fails h e nodes1 x = OK (h', e', nodes, inl m) -> holds_text h' e' m) by (intros; eapply search_fails_text; eauto).
  destruct (path_view_advance pv) as [[pv' more]| |]; cbn [bind]; try discriminate. destruct (negb more); [apply F|].
  destruct cs as [|c0 cs]; [apply F|]. set (l := c0 :: cs). clearbody l. destruct (search l pv') as [[i|]| |]; cbn [bind]; try discriminate.
  - destruct (aget l i) as [[n vt size fi pos|n sub]| |]; cbn [bind]; try discriminate; [|apply IH]. destruct (path_view_advance pv') as [[pv2 more2]| |]; cbn [bind]; try discriminate. apply F.
  - destruct (first_d_entry l) as [[d|]| |]; cbn [bind]; try discriminate; [|apply F]. destruct (search_d_mem _ h d pv') as [[[h2 nodes2] [tp|]]| |]; cbn [bind]; try discriminate. apply F.
Qed.
Lemma search_text h e b variable h' e' nodes m : search_timed_mem h e b variable = OK (h', e', nodes, inl m) -> holds_text h' e' m.
Proof.
  unfold search_timed_mem. destruct (clear_error h e) as [[h1 e1]| |]; cbn [bind]; try discriminate.
  assert (F : forall h e nodes1 x, search_fails h e nodes1 x = OK (h', e', nodes, inl m) -> holds_text h' e' m) by (intros; eapply search_fails_text; eauto).
  destruct (b_dir b) as [|c0 cs]; [apply F|]. set (l := c0 :: cs). clearbody l. destruct (path_view_new variable) as [pv| |]; cbn [bind]; try discriminate.
  destruct (path_view_advance pv) as [[pv' more]| |]; cbn [bind]; try discriminate. destruct (negb more); [apply F|]. destruct (search l pv') as [[i|]| |]; cbn [bind]; try discriminate; [|apply F].
  destruct (aget l i) as [[n vt size fi pos|n sub]| |]; cbn [bind]; try discriminate; [apply F|apply search_loop_text].
Qed.
Lemma read_timed_text h0 h e b variable vs st t ps h' e' r p m : leaves h0 h (e :: ps) ->
  read_timed_mem h e b variable vs st t = OK (h', e', r, p) -> t_error r = Some m -> holds_text h' e' m.
Proof.
  intros L. unfold read_timed_mem. pose proof (search_timed_mem_ok h0 h e b variable ps L) as S0.
  destruct (search_timed_mem h e b variable) as [[[[h1 e1] nodes] [x|[cs tp]]]| |] eqn:E; cbn [bind]; try discriminate.
  - destruct (do s <- search_timed b variable; with_string s) as [s| |]; cbn [alike searched] in S0; try contradiction. destruct S0 as (_ & L1 & _).
    destruct (timed_path_free h1 nodes) as [h2| |] eqn:Ef; cbn [bind]; try discriminate. intros Q D. injection Q as <- <- <- <-. injection D as <-.
    destruct (search_text _ _ _ _ _ _ _ _ E) as (q & -> & R). exists q. split; [reflexivity|]. apply (free_path_room _ _ _ _ _ Ef); [|exact R].
    intros y I Q. destruct L1 as (_ & _ & _ & Nd & _). rewrite blocks_app in Nd. cbn [blocks] in Nd. 
    assert (Ib : In (fst y) (blocks (map Some nodes))) by (clear - I; induction nodes as [|z r IH]; [contradiction|]; destruct I as [->|I]; [left; reflexivity|right; apply IH; exact I]).
    rewrite <- Q in Ib. apply NoDup_remove_2 in Nd. apply Nd. apply in_app_iff. left. exact Ib.
  - destruct (first_d cs 0); cbn [bind]; try discriminate. destruct (last_d _ _); cbn [bind]; try discriminate. destruct (aget _ _); cbn [bind]; try discriminate.
    destruct (open_timed_path _ _ _) as [[[n vt size fi pos|n sub]|]| |]; cbn [bind]; try discriminate. cbv zeta. destruct (_ =? 0)%Z.
    + destruct (timed_path_free h1 nodes); cbn [bind]; try discriminate. apply timed_fails_text.
    + destruct (h_malloc _ _) as [h2 q2]. apply read_steps_text.
Qed.
Lemma children_room h b path h' cs p : get_children_mem h b path = OK (h', Some cs, Some p) -> room h' p (length cs).
Proof.
  unfold get_children_mem. destruct (path_view_new path) as [pv| |]; cbn [bind]; try discriminate. destruct (directory_get_children _ _) as [[l|]| |]; cbn [bind]; try discriminate.
  mcase. unfold malloc in M. rewrite repeat_length in M. intros E. injection E as <- <- <-. rewrite map_length. exact M.
Qed.
Lemma append_text h p s t h' p' : append_mem h p s t = OK (h', p') -> (forall x, p = Some x -> fst x < length h) -> holds_text h' p' (s ++ t).
Proof.
  unfold append_mem. destruct (h_realloc _ _ _) as [[h1 q]| |] eqn:E; cbn [bind]; try discriminate. intros Q In. injection Q as <- <-. exists q. split; [reflexivity|].
  pose proof (realloc_room _ _ _ _ _ E In) as R. rewrite Nat2Z.id in R. rewrite app_length. exact (proj1 R).
Qed.
Lemma text_in h p s : holds_text h p s -> forall x, p = Some x -> fst x < length h.
Proof. intros (q & -> & R) x [= <-]. exact (room_lt _ _ _ R). Qed.
Lemma appends_text ts : forall h p s h' p', appends_mem h p s ts = OK (h', p') -> holds_text h p s -> holds_text h' p' (s ++ concat ts).
Proof.
  induction ts as [|t r IH]; intros h p s h' p'; cbn [appends_mem concat]; [intros [= <- <-] H; rewrite app_nil_r; exact H|].
  destruct (append_mem h p s t) as [[h1 p1]| |] eqn:E; cbn [bind]; try discriminate. intros Q H. rewrite app_assoc. apply (IH _ _ _ _ _ Q), (append_text _ _ _ _ _ _ E), text_in with s, H.
Qed.
Lemma simple_loop_text fuel : forall h p cs real timed pv h' path t tm p', holds_text h p real -> simple_loop_mem fuel h p cs real timed pv = OK (h', Some (path, t, tm), p') -> holds_text h' p' path.
Proof.
  induction fuel as [|f IH]; intros h p cs real timed pv h' path t tm p' H; [discriminate|]. cbn [simple_loop_mem].
  destruct (path_view_advance pv) as [[pv' more]| |]; cbn [bind]; try discriminate. destruct (negb more); [intros [= <- <- _ _ <-]; exact H|].
  assert (F : no_path h p = OK (h', Some (path, t, tm), p') -> holds_text h' p' path) by (unfold no_path; destruct (h_free_opt h p); discriminate).
  destruct cs as [|c0 cs]; [exact F|]. set (l := c0 :: cs). clearbody l. cbv zeta.
  assert (En : forall e ts timed, match e with
    | File _ vt _ _ _ => do '(_, more) <- path_view_advance pv'; if more then no_path h p
      else do ' (h, p) <- appends_mem h p real ts; OK (h, Some (real ++ concat ts, vt, timed), p)
    | Folder _ sub => do ' (h, p) <- appends_mem h p real ts; simple_loop_mem f h p sub (real ++ concat ts) timed pv' end = OK (h', Some (path, t, tm), p') -> holds_text h' p' path).
  { intros [n vt size fi pos|n sub] ts timed'.
    - destruct (path_view_advance pv') as [[pv2 more2]| |]; cbn [bind]; try discriminate. destruct more2; [exact F|]. destruct (appends_mem h p real ts) as [[h1 p1]| |] eqn:E; cbn [bind]; try discriminate.
      intros [= <- <- _ _ <-]. exact (appends_text _ _ _ _ _ _ E H).
    - destruct (appends_mem h p real ts) as [[h1 p1]| |] eqn:E; cbn [bind]; try discriminate. apply IH. exact (appends_text _ _ _ _ _ _ E H). }
  destruct (search l pv') as [[i|]| |]; cbn [bind]; try discriminate.
  - destruct (aget l i) as [e| |]; cbn [bind]; try discriminate. exact (En e ([] ++ [[SEP]; ename e]) timed).
  - destruct (last_metadata _ _) as [md| |]; cbn [bind]; try discriminate. destruct (search_opt md pv') as [[e|]| |]; cbn [bind]; try discriminate; [exact (En e ([[SEP]; bs "metadata"] ++ [[SEP]; ename e]) timed)|].
    destruct (first_d_entry l) as [d| |]; cbn [bind]; try discriminate. destruct (search_opt d pv') as [[e|]| |]; cbn [bind]; try discriminate; [exact (En e ([] ++ [[SEP]; ename e]) true)|exact F].
Qed.
Lemma simple_text h b simple h' path t tm p' : simple_path_to_real_mem h b simple = OK (h', Some (path, t, tm), p') -> holds_text h' p' path.
Proof.
  unfold simple_path_to_real_mem. destruct (path_view_new simple) as [pv| |]; cbn [bind]; try discriminate. destruct (append_mem h None [] [SEP]) as [[h1 p1]| |] eqn:E1; cbn [bind]; try discriminate.
  assert (H1 : holds_text h1 p1 [SEP]) by (apply (append_text _ _ _ _ _ _ E1); discriminate).
  destruct (path_is_abs simple) as [abs| |]; cbn [bind]; try discriminate. destruct (if abs then path_view_advance pv else OK (pv, true)) as [[pv' more]| |]; cbn [bind]; try discriminate.
  destruct (negb more); [intros [= <- <- _ _ <-]; exact H1|].
  assert (F : no_path h1 p1 = OK (h', Some (path, t, tm), p') -> holds_text h' p' path) by (unfold no_path; destruct (h_free_opt h1 p1); discriminate).
  destruct (b_dir b) as [|c0 cs]; [exact F|]. set (l := c0 :: cs). clearbody l. destruct (search l pv') as [[i|]| |]; cbn [bind]; try discriminate; [|exact F].
  destruct (aget l i) as [e| |]; cbn [bind]; try discriminate. destruct e as [n vt size fi pos|n sub].
  - destruct (path_view_advance pv') as [[pv2 more2]| |]; cbn [bind]; try discriminate. destruct more2; [exact F|]. destruct (append_mem h1 p1 [SEP] _) as [[h2 p2]| |] eqn:E2; cbn [bind]; try discriminate.
    intros [= <- <- _ _ <-]. exact (append_text _ _ _ _ _ _ E2 (text_in _ _ _ H1)).
  - destruct (append_mem h1 p1 [SEP] _) as [[h2 p2]| |] eqn:E2; cbn [bind]; try discriminate. apply simple_loop_text. exact (append_text _ _ _ _ _ _ E2 (text_in _ _ _ H1)).
Qed.
