From Coq Require Import Sorting.Sorted.
From Verif Require Import CBase CBaseFacts SearchModel SearchSpec SearchProofs PathModel PathSpec PathProofs
  KeyTableModel KeyTableProofs BinDirModel BinDirSpec.

(** ** names *)
Definition name_eqb (a b : list Z) : bool := if list_eq_dec Z.eq_dec a b then true else false.
Lemma name_eqb_eq a b : name_eqb a b = true <-> a = b.
Proof. unfold name_eqb. destruct (list_eq_dec Z.eq_dec a b); split; congruence. Qed.
Lemma name_eqb_refl a : name_eqb a a = true. Proof. apply name_eqb_eq. reflexivity. Qed.
Lemma name_eqb_neq a b : name_eqb a b = false <-> a <> b.
Proof. rewrite <- name_eqb_eq. destruct (name_eqb a b); split; congruence. Qed.

Definition find_name (n : cstr) (cs : list entry) : option entry := find (fun e => name_eqb (ename e) n) cs.

Lemma find_name_app n a b : find_name n (a ++ b) = match find_name n a with Some e => Some e | None => find_name n b end.
Proof. unfold find_name. induction a as [|x a IH]; [reflexivity|]. simpl. destruct (name_eqb (ename x) n); [reflexivity|exact IH]. Qed.
Lemma find_name_none n cs : find_name n cs = None <-> ~ In n (map ename cs).
Proof.
  induction cs as [|x cs IH]; [simpl; tauto|]. cbn [find_name find map]. fold (find_name n cs).
  destruct (name_eqb (ename x) n) eqn:E.
  - apply name_eqb_eq in E. split; [discriminate|]. intros H. exfalso. apply H. left. assumption.
  - apply name_eqb_neq in E. rewrite IH. simpl. tauto.
Qed.
Lemma find_name_some n cs e : find_name n cs = Some e -> In e cs /\ ename e = n.
Proof. intros H. apply find_some in H as [H1 H2]. apply name_eqb_eq in H2. auto. Qed.

Definition good (cs : list entry) : Prop := names_strict (map ename cs) /\ Forall ascii_str (map ename cs).

Lemma good_nth cs n e i : good cs -> nth_error cs i = Some e -> ename e = n -> find_name n cs = Some e.
Proof.
  intros [Hs _] Hi Hn. apply nth_error_split in Hi as (a & b & -> & _). rewrite find_name_app.
  assert (find_name n a = None) as ->.
  { apply find_name_none. intros I. rewrite map_app in Hs. cbn [map] in Hs. rewrite Hn in Hs.
    clear - Hs I. induction (map ename a) as [|x l IH]; [contradiction|]. simpl in Hs. inversion Hs as [|? ? H1 H2]; subst.
    destruct I as [->|I]; [|apply IH; assumption]. rewrite Forall_forall in H2.
    apply (bytes_lt_irrefl n). apply H2. apply in_or_app. right. left. reflexivity. }
  cbn [find_name find]. rewrite Hn, name_eqb_refl. reflexivity.
Qed.

(** [cs'] is [cs] with [e] bound to its name. *)
Definition bound (cs : list entry) (e : entry) (cs' : list entry) : Prop :=
  good cs' /\ (forall m, find_name m cs' = if name_eqb m (ename e) then Some e else find_name m cs) /\
  (forall m, In m (map ename cs') <-> m = ename e \/ In m (map ename cs)).

Lemma find_slot_spec cs n : good cs -> exists i f, find_slot cs n = OK (i, f) /\
  match f with
  | true => exists e, nth_error cs i = Some e /\ find_name n cs = Some e
  | false => find_name n cs = None /\ i <= length cs /\ names_strict (firstn i (map ename cs) ++ n :: skipn i (map ename cs))
  end.
Proof.
  intros [Hs Ha]. unfold find_slot. destruct cs as [|c cs].
  - exists 0, false. split; [reflexivity|]. split; [reflexivity|]. split; [simpl; lia|]. constructor; constructor.
  - set (l := c :: cs) in *. replace (length l) with (length (map ename l)) by apply map_length.
    destruct (name_insert_strict (map ename l) n ltac:(discriminate) Hs) as (p & f & Hr & Hi & Ht & Hf).
    exists p, f. split; [exact Hr|]. destruct f.
    + specialize (Ht eq_refl). rewrite nth_error_map in Ht. destruct (nth_error l p) as [e|] eqn:E; [|discriminate]. injection Ht as Ht.
      exists e. split; [reflexivity|]. eapply good_nth; [split; assumption|eassumption|assumption].
    + destruct (Hf eq_refl) as [Hp Hst]. split; [|split; assumption].
      apply find_name_none. intros I. apply Hi in I. discriminate.
Qed.

Lemma insert_entry_spec cs i e : i <= length cs -> insert_entry cs i e = OK (firstn i cs ++ e :: skipn i cs).
Proof. intros H. unfold insert_entry. apply insert_at_spec. exact H. Qed.

Lemma insert_bound cs i e : good cs -> ascii_str (ename e) -> i <= length cs -> find_name (ename e) cs = None ->
  names_strict (firstn i (map ename cs) ++ ename e :: skipn i (map ename cs)) -> bound cs e (firstn i cs ++ e :: skipn i cs).
Proof.
  intros [Hs Ha] He Hi Hn Hst. split; [|split].
  - unfold good. rewrite map_app. cbn [map]. rewrite <- firstn_map, <- skipn_map. split; [assumption|].
    rewrite <- (firstn_skipn i (map ename cs)) in Ha. apply Forall_app in Ha as [H1 H2]. apply Forall_app. split; [assumption|]. constructor; assumption.
  - intros m. rewrite find_name_app. cbn [find_name find]. fold (find_name m (skipn i cs)).
    rewrite <- (firstn_skipn i cs) in Hn. rewrite find_name_app in Hn.
    destruct (name_eqb m (ename e)) eqn:E.
    + apply name_eqb_eq in E. subst m. rewrite name_eqb_refl. destruct (find_name (ename e) (firstn i cs)); [discriminate|reflexivity].
    + apply name_eqb_neq in E. destruct (name_eqb (ename e) m) eqn:E2; [apply name_eqb_eq in E2; congruence|].
      transitivity (find_name m (firstn i cs ++ skipn i cs)); [rewrite find_name_app; reflexivity|rewrite firstn_skipn; reflexivity].
  - intros m. rewrite map_app. cbn [map]. rewrite in_app_iff. cbn [In].
    assert (Q : In m (map ename cs) <-> In m (map ename (firstn i cs)) \/ In m (map ename (skipn i cs))).
    { rewrite <- in_app_iff, <- map_app, firstn_skipn. reflexivity. }
    rewrite Q. intuition.
Qed.

Lemma aset_split {A} (l : list A) i x v : nth_error l i = Some x -> aset l i v = OK (firstn i l ++ v :: skipn (S i) l) /\
  l = firstn i l ++ x :: skipn (S i) l /\ length (firstn i l) = i.
Proof.
  intros H. pose proof (nth_error_Some_lt _ _ _ H) as L. rewrite aset_lt by assumption.
  apply nth_error_split in H as (a & b & -> & Hl). subst i.
  rewrite firstn_app, Nat.sub_diag, firstn_O, app_nil_r, firstn_all.
  replace (S (length a)) with (length (a ++ [x])) by (rewrite app_length; simpl; lia).
  replace (a ++ x :: b) with ((a ++ [x]) ++ b) by (rewrite <- app_assoc; reflexivity).
  rewrite skipn_app, skipn_all, Nat.sub_diag. cbn [app skipn]. split; [|split; [rewrite <- app_assoc; reflexivity|reflexivity]].
  reflexivity.
Qed.

Lemma replace_bound cs i x e : good cs -> nth_error cs i = Some x -> ename x = ename e ->
  bound cs e (firstn i cs ++ e :: skipn (S i) cs).
Proof.
  intros [Hs Ha] Hi He. destruct (aset_split cs i x e Hi) as (_ & Es & _).
  set (a := firstn i cs) in *. set (b := skipn (S i) cs) in *. clearbody a b. subst cs.
  assert (En : map ename (a ++ e :: b) = map ename (a ++ x :: b)) by (rewrite !map_app; cbn [map]; rewrite He; reflexivity).
  split; [|split].
  - unfold good. rewrite En. split; assumption.
  - intros m. destruct (name_eqb m (ename e)) eqn:E.
    + apply name_eqb_eq in E. subst m. eapply (good_nth _ _ _ (length a)); [split; [rewrite En; assumption|rewrite En; assumption]| |reflexivity].
      rewrite nth_error_app2, Nat.sub_diag by lia. reflexivity.
    + apply name_eqb_neq in E. rewrite !find_name_app. cbn [find_name find]. rewrite He.
      destruct (name_eqb (ename e) m) eqn:E2; [apply name_eqb_eq in E2; congruence|reflexivity].
  - intros m. rewrite En. rewrite map_app, in_app_iff. cbn [map In]. rewrite He. intuition.
Qed.

(** ** nodes *)
Inductive node := NFile (i : info) | NFolder.
Definition kind (e : entry) : node :=
  match e with File _ vt sz fi pos => NFile (vt, sz, fi, pos) | Folder _ _ => NFolder end.

Fixpoint node_of (e : entry) (p : list (list Z)) : option node :=
  match p with
  | [] => Some (kind e)
  | n :: r =>
    match e with
    | Folder _ sub => match find_name n sub with Some e' => node_of e' r | None => None end
    | File _ _ _ _ _ => None
    end
  end.
(** the node at a path below a children array *)
Definition nd (cs : list entry) (p : list (list Z)) : option node := node_of (Folder [] cs) p.
Lemma nd_cons cs n r : nd cs (n :: r) = match find_name n cs with Some e => node_of e r | None => None end.
Proof. reflexivity. Qed.
Lemma node_folder n cs p : node_of (Folder n cs) p = nd cs p.
Proof. destruct p; reflexivity. Qed.

Fixpoint children_at (cs : list entry) (p : list (list Z)) : option (list entry) :=
  match p with
  | [] => Some cs
  | n :: r => match find_name n cs with Some (Folder _ sub) => children_at sub r | _ => None end
  end.
Definition wf (cs : list entry) : Prop := forall p sub, children_at cs p = Some sub -> good sub.
Lemma wf_good cs : wf cs -> good cs. Proof. intros H. apply (H []). reflexivity. Qed.
Lemma wf_nil : wf [].
Proof. intros [|n r] sub E; [injection E as <-; split; constructor|discriminate]. Qed.
Lemma wf_sub cs n m sub : wf cs -> find_name n cs = Some (Folder m sub) -> wf sub.
Proof. intros H E p s Q. apply (H (n :: p)). cbn [children_at]. rewrite E. exact Q. Qed.
Lemma wf_bound cs e cs' : wf cs -> bound cs e cs' -> match e with Folder _ sub => wf sub | _ => True end -> wf cs'.
Proof.
  intros H (G & F & _) He [|n r] sub Q.
  - injection Q as <-. exact G.
  - cbn [children_at] in Q. rewrite F in Q. destruct (name_eqb n (ename e)).
    + destruct e; [discriminate|]. apply (He r). exact Q.
    + apply (H (n :: r)). exact Q.
Qed.

Lemma nd_children cs p : nd cs p = Some NFolder <-> exists sub, children_at cs p = Some sub.
Proof.
  revert cs; induction p as [|n r IH]; intros cs; [split; [intros _; eexists; reflexivity|reflexivity]|].
  rewrite nd_cons. cbn [children_at]. destruct (find_name n cs) as [e|]; [|split; [discriminate|intros [s Q]; discriminate]].
  destruct e as [m vt sz fi pos|m sub].
  - destruct r; (split; [discriminate|intros [s Q]; discriminate]).
  - rewrite node_folder. apply IH.
Qed.
Lemma nd_app cs p sub q : children_at cs p = Some sub -> nd cs (p ++ q) = nd sub q.
Proof.
  revert cs; induction p as [|n r IH]; intros cs E; [injection E as ->; reflexivity|].
  cbn [children_at] in E. cbn [app]. rewrite nd_cons. destruct (find_name n cs) as [[|m s]|]; try discriminate.
  rewrite node_folder. apply IH. exact E.
Qed.

Fixpoint resolves (cs : list entry) (a : addr) (els : list (list Z)) : Prop :=
  match a, els with
  | [], [] => True
  | i :: a', n :: els' => exists sub, nth_error cs i = Some (Folder n sub) /\ resolves sub a' els'
  | _, _ => False
  end.

Lemma resolves_children cs a els : wf cs -> resolves cs a els -> exists sub, children_at cs els = Some sub.
Proof.
  revert cs a; induction els as [|n els IH]; intros cs a H R; destruct a as [|i a]; try contradiction; [eexists; reflexivity|].
  destruct R as (sub & E & R). pose proof (good_nth cs n _ i (wf_good _ H) E eq_refl) as Fn. cbn [children_at]. rewrite Fn.
  eapply IH; [|eassumption]. eapply wf_sub; eassumption.
Qed.

(** changing the children of a folder *)
Lemma at_folder_spec a : forall cs els sub f sub', wf cs -> resolves cs a els -> children_at cs els = Some sub -> f sub = OK sub' -> wf sub' ->
  exists cs', at_folder a cs f = OK cs' /\ wf cs' /\ resolves cs' a els /\ children_at cs' els = Some sub' /\
    (forall p, nd cs' (els ++ p) = nd sub' p) /\ (forall p, ~ prefix els p -> nd cs' p = nd cs p).
Proof.
  induction a as [|i a IH]; intros cs els sub f sub' H R C Hf Hw; destruct els as [|n els]; try contradiction.
  - cbn [children_at] in C. injection C as ->. cbn [at_folder]. exists sub'. split; [exact Hf|]. split; [exact Hw|]. split; [exact I|]. split; [reflexivity|]. split; [reflexivity|].
    intros p Hp. exfalso. apply Hp. exists p. reflexivity.
  - destruct R as (s1 & E & R). pose proof (good_nth cs n _ i (wf_good _ H) E eq_refl) as Fn. cbn [ename] in Fn.
    cbn [children_at] in C. rewrite Fn in C. pose proof (wf_sub _ _ _ _ H Fn) as H1.
    destruct (IH s1 els sub f sub' H1 R C Hf Hw) as (s2 & E2 & W2 & R2 & C2 & N2 & N3).
    cbn [at_folder]. unfold aget. rewrite E. cbn [bind]. rewrite E2. cbn [bind].
    destruct (aset_split cs i _ (Folder n s2) E) as (E3 & E4 & L). rewrite E3.
    pose proof (replace_bound cs i _ (Folder n s2) (wf_good _ H) E eq_refl) as B.
    set (cs' := firstn i cs ++ Folder n s2 :: skipn (S i) cs) in *.
    exists cs'. split; [reflexivity|]. split; [exact (wf_bound cs (Folder n s2) cs' H B W2)|].
    destruct B as (G & F & _). split.
    { exists s2. split; [|assumption]. unfold cs'. rewrite nth_error_app2; rewrite L; [rewrite Nat.sub_diag; reflexivity|lia]. }
    assert (F' : find_name n cs' = Some (Folder n s2)) by (rewrite F; cbn [ename]; rewrite name_eqb_refl; reflexivity).
    split; [cbn [children_at]; rewrite F'; exact C2|]. split.
    + intros p. cbn [app]. rewrite nd_cons, F', node_folder. apply N2.
    + intros p Hp. destruct p as [|m p]; [reflexivity|]. rewrite !nd_cons, F. cbn [ename].
      destruct (name_eqb m n) eqn:Em; [|reflexivity]. apply name_eqb_eq in Em. subst m. rewrite Fn, !node_folder. apply N3.
      intros [r ->]. apply Hp. exists r. reflexivity.
Qed.

(** ** views *)
(** [pv] shows the first of the elements [els], the others follow. *)
Definition shows (pv : path_view) (els : list (list Z)) : Prop :=
  is_cstr (pv_string pv) /\ view_ok pv /\ els = view_text pv :: elements (skipn (pv_end pv + 1) (pv_string pv)).

Lemma shows_advance pv e els : shows pv (e :: els) ->
  match els with
  | [] => path_view_advance pv = OK (pv, false)
  | _ => exists pv', path_view_advance pv = OK (pv', true) /\ shows pv' els /\ pv_string pv' = pv_string pv /\ pv_end pv < pv_start pv'
  end.
Proof.
  intros (Hc & [V1 V2] & E). injection E as _ E. destruct pv as [s st en]. cbn [pv_string pv_start pv_end] in *.
  destruct (advance_spec s st en Hc ltac:(lia)) as [[Q Ha]|(pv' & Ha & Hs & Hb & Hl & _ & He)].
  - rewrite Q in E. subst els. exact Ha.
  - rewrite He in E. subst els. exists pv'. split; [exact Ha|]. split; [|split; [assumption|lia]].
    split; [rewrite Hs; assumption|]. split; [unfold view_ok; rewrite Hs; lia|]. rewrite Hs. reflexivity.
Qed.

(** ** inserting folders *)
Lemma prefix_nil p : prefix [] p. Proof. exists p. reflexivity. Qed.
Lemma prefix_cons n q m p : prefix (n :: q) (m :: p) <-> n = m /\ prefix q p.
Proof. split; [intros [r E]; injection E as -> ->; split; [reflexivity|eexists; reflexivity]|intros [-> [r ->]]; exists r; reflexivity]. Qed.

Lemma nd_bound cs e cs' n r : bound cs e cs' -> ename e = n -> nd cs' (n :: r) = node_of e r.
Proof. intros (_ & F & _) <-. rewrite nd_cons, F, name_eqb_refl. reflexivity. Qed.
Lemma nd_bound_other cs e cs' m r : bound cs e cs' -> ename e <> m -> nd cs' (m :: r) = nd cs (m :: r).
Proof. intros (_ & F & _) H. rewrite !nd_cons, F. destruct (name_eqb m (ename e)) eqn:E; [apply name_eqb_eq in E; congruence|reflexivity]. Qed.

Lemma folder_insert_folder_spec els : forall fuel cs pv, wf cs -> shows pv els -> Forall ascii_str els -> length els <= fuel ->
  (forall q i, prefix q els -> nd cs q <> Some (NFile i)) ->
  exists cs' a, folder_insert_folder fuel cs pv = OK (cs', Some a) /\ wf cs' /\ resolves cs' a els /\
    (forall q, prefix q els -> nd cs' q = Some NFolder) /\ (forall q, ~ prefix q els -> nd cs' q = nd cs q).
Proof.
  induction els as [|n els IH]; intros fuel cs pv H S As L Nf.
  { destruct S as (_ & _ & E). discriminate. }
  destruct fuel as [|fuel]; [simpl in L; lia|]. inversion As as [|? ? An As']; subst.
  pose proof (shows_advance pv n els S) as Adv.
  destruct S as (Hc & Hv & E). injection E as En E. cbn [folder_insert_folder].
  rewrite (stralloc_spec pv Hv Hc), <- En. cbn [bind].
  destruct (find_slot_spec cs n (wf_good _ H)) as (i & f & Sl & Fs). rewrite Sl. cbn [bind].
  assert (X : exists cs1 sub, (if f then do e <- aget cs i; OK (cs, is_folder e)
       else do cs <- insert_entry cs i (Folder n []); OK (cs, true)) = OK (cs1, true) /\ wf cs1 /\ wf sub /\
       nth_error cs1 i = Some (Folder n sub) /\
       (forall q, nd cs1 q = if match q with [m] => name_eqb m n | _ => false end then Some NFolder else nd cs q) /\
       (forall q, nd sub q = match q with [] => Some NFolder | _ => nd cs (n :: q) end)).
  { destruct f.
    - destruct Fs as (e & Ne & Fe). destruct e as [m vt sz fi pos|m sub].
      + exfalso. apply (Nf [n] (vt, sz, fi, pos)); [apply prefix_cons; split; [reflexivity|apply prefix_nil]|]. rewrite nd_cons, Fe. reflexivity.
      + exists cs, sub. assert (m = n) as -> by (apply find_name_some in Fe as [_ Q]; exact Q).
        unfold aget. rewrite Ne. cbn [bind is_folder]. split; [reflexivity|]. split; [assumption|].
        split; [eapply wf_sub; eassumption|]. split; [reflexivity|]. split.
        * intros [|m [|]]; try reflexivity. destruct (name_eqb m n) eqn:Em; [|reflexivity]. apply name_eqb_eq in Em. subst m.
          rewrite nd_cons, Fe. reflexivity.
        * intros [|m q]; [reflexivity|]. rewrite (nd_cons cs n), Fe, node_folder. reflexivity.
    - destruct Fs as (Fn & Hi & St). rewrite insert_entry_spec by assumption. cbn [bind].
      pose proof (insert_bound cs i (Folder n []) (wf_good _ H) An Hi Fn St) as B.
      set (cs1 := firstn i cs ++ Folder n [] :: skipn i cs) in *. exists cs1, []. split; [reflexivity|].
      split; [exact (wf_bound cs (Folder n []) cs1 H B wf_nil)|]. split; [exact wf_nil|]. split.
      { unfold cs1. rewrite nth_error_app2; rewrite firstn_length; [|lia]. replace (i - Nat.min i (length cs)) with 0 by lia. reflexivity. }
      split.
      + intros [|m q]; [reflexivity|]. destruct (name_eqb m n) eqn:Em.
        * apply name_eqb_eq in Em. subst m. rewrite (nd_bound cs (Folder n []) cs1 n q B eq_refl), node_folder. destruct q as [|x q]; [reflexivity|].
          rewrite (nd_cons cs n), Fn. reflexivity.
        * apply name_eqb_neq in Em. rewrite (nd_bound_other cs (Folder n []) cs1 m q B) by (cbn [ename]; congruence).
          destruct q; reflexivity.
      + intros [|m q]; [reflexivity|]. rewrite (nd_cons cs n), Fn. reflexivity. }
  destruct X as (cs1 & sub & Ex & W1 & Ws & Nt & N1 & N2). rewrite Ex. cbn [bind negb].
  destruct els as [|n2 els].
  - rewrite Adv. cbn [bind negb]. exists cs1, [i]. split; [reflexivity|]. split; [assumption|]. split; [exists sub; split; [assumption|exact I]|].
    split; intros q Hq; rewrite N1.
    + destruct q as [|m q]; [reflexivity|]. apply prefix_cons in Hq as [-> [r Q]]. symmetry in Q. apply app_eq_nil in Q as [-> _]. rewrite name_eqb_refl. reflexivity.
    + destruct q as [|m [|]]; try reflexivity. destruct (name_eqb m n) eqn:Em; [|reflexivity]. apply name_eqb_eq in Em. subst m.
      exfalso. apply Hq. exists []. reflexivity.
  - destruct Adv as (pv' & Ea & S' & Es & _). rewrite Ea. cbn [bind negb]. unfold aget. rewrite Nt. cbn [bind].
    destruct (IH fuel sub pv' Ws S' As' ltac:(simpl in L |- *; lia)) as (sub' & a & Ei & Wi & Ri & Pi & Oi).
    { intros q j Hq. rewrite N2. destruct q as [|m q]; [discriminate|]. apply Nf. apply prefix_cons. split; [reflexivity|exact Hq]. }
    rewrite Ei. cbn [bind].
    destruct (aset_split cs1 i _ (Folder n sub') Nt) as (E3 & E4 & Li). rewrite E3. cbn [bind option_map].
    pose proof (replace_bound cs1 i _ (Folder n sub') (wf_good _ W1) Nt eq_refl) as B.
    set (cs2 := firstn i cs1 ++ Folder n sub' :: skipn (S i) cs1) in *.
    exists cs2, (i :: a). split; [reflexivity|]. split; [exact (wf_bound cs1 (Folder n sub') cs2 W1 B Wi)|]. split.
    { exists sub'. split; [|exact Ri]. unfold cs2. rewrite nth_error_app2; rewrite Li; [rewrite Nat.sub_diag; reflexivity|lia]. }
    split; intros q Hq.
    + destruct q as [|m q]; [reflexivity|]. apply prefix_cons in Hq as [-> Hq]. rewrite (nd_bound cs1 (Folder n sub') cs2 n q B eq_refl), node_folder. apply Pi. exact Hq.
    + destruct q as [|m q]; [exfalso; apply Hq; apply prefix_nil|]. destruct (list_eq_dec Z.eq_dec m n) as [->|Ne].
      * rewrite (nd_bound cs1 (Folder n sub') cs2 n q B eq_refl), node_folder. rewrite Oi by (intros P; apply Hq, prefix_cons; split; [reflexivity|exact P]).
        rewrite N2. destruct q; [exfalso; apply Hq; apply prefix_cons; split; [reflexivity|apply prefix_nil]|reflexivity].
      * rewrite (nd_bound_other cs1 (Folder n sub') cs2 m q B) by (cbn [ename]; congruence). rewrite N1.
        destruct q as [|]; [|reflexivity]. destruct (name_eqb m n) eqn:Em; [apply name_eqb_eq in Em; congruence|reflexivity].
Qed.

(** ** inserting variables *)
Lemma folder_insert_file_spec cs n vt sz fi pos : wf cs -> ascii_str n -> nd cs [n] <> Some NFolder ->
  exists cs', folder_insert_file cs n vt sz fi pos = OK cs' /\ wf cs' /\
    forall q, nd cs' q = match q with
                         | m :: r => if name_eqb m n then match r with [] => Some (NFile (vt, sz, fi, pos)) | _ => None end else nd cs q
                         | [] => Some NFolder
                         end.
Proof.
  intros H An Nf. unfold folder_insert_file.
  destruct (find_slot_spec cs n (wf_good _ H)) as (i & f & Sl & Fs). rewrite Sl. cbn [bind].
  set (e := File n vt sz fi pos).
  assert (Fin : forall cs', bound cs e cs' -> wf cs' /\ forall q, nd cs' q = match q with
                         | m :: r => if name_eqb m n then match r with [] => Some (NFile (vt, sz, fi, pos)) | _ => None end else nd cs q
                         | [] => Some NFolder
                         end).
  { intros cs' B. split; [exact (wf_bound cs e cs' H B I)|]. intros [|m r]; [reflexivity|]. destruct (name_eqb m n) eqn:Em.
    - apply name_eqb_eq in Em. subst m. rewrite (nd_bound cs e cs' n r B eq_refl). destruct r; reflexivity.
    - apply name_eqb_neq in Em. apply (nd_bound_other cs e cs' m r B). cbn. congruence. }
  destruct f.
  - destruct Fs as (x & Nx & Fx). unfold aget. rewrite Nx. cbn [bind]. destruct x as [m a b c d|m sub]; cbn [is_folder].
    + assert (Em : m = n) by (apply find_name_some in Fx as [_ Q]; exact Q).
      destruct (aset_split cs i _ e Nx) as (E3 & _ & _). rewrite E3. eexists. split; [reflexivity|]. apply Fin.
      apply (replace_bound cs i _ e (wf_good _ H) Nx). exact Em.
    + exfalso. apply Nf. rewrite nd_cons, Fx. reflexivity.
  - destruct Fs as (Fn & Hi & St). rewrite insert_entry_spec by assumption. eexists. split; [reflexivity|]. apply Fin.
    apply insert_bound; auto using wf_good.
Qed.

(** ** lookup *)
Lemma search_spec cs pv n els : good cs -> cs <> [] -> shows pv (n :: els) -> ascii_str (pv_string pv) ->
  match find_name n cs with
  | None => search cs pv = OK None
  | Some e => exists i, search cs pv = OK (Some i) /\ nth_error cs i = Some e
  end.
Proof.
  intros G Ne (Hc & Hv & E) Ha. injection E as En _. unfold search.
  replace (length cs) with (length (map ename cs)) by apply map_length.
  assert (Ne' : map ename cs <> []) by (destruct cs; [congruence|discriminate]).
  destruct (find_name n cs) as [e|] eqn:Fe.
  - destruct (find_name_some n cs e Fe) as [I Nm]. apply In_nth_error in I as [i Hi]. exists i. split; [|assumption].
    destruct G as [G1 G2]. apply (entry_search_iff (map ename cs) pv i Hv Ha G2 Ne' G1). rewrite nth_error_map, Hi. cbn. congruence.
  - destruct G as [G1 G2]. apply (entry_search_iff (map ename cs) pv 0 Hv Ha G2 Ne' G1). rewrite <- En. apply find_name_none. exact Fe.
Qed.

Definition as_file (n : list Z) (o : option node) : option entry :=
  match o with Some (NFile (vt, sz, fi, pos)) => Some (File n vt sz fi pos) | _ => None end.

Lemma folder_get_file_spec els : forall fuel cs pv, wf cs -> shows pv els -> ascii_str (pv_string pv) -> length els <= fuel ->
  folder_get_file fuel cs pv = OK (as_file (last els []) (nd cs els)).
Proof.
  induction els as [|n els IH]; intros fuel cs pv H S Ha L; [destruct S as (_ & _ & E); discriminate|].
  destruct fuel as [|fuel]; [simpl in L; lia|]. cbn [folder_get_file].
  pose proof (shows_advance pv n els S) as Adv.
  destruct cs as [|c cs]; [reflexivity|]. set (l := c :: cs) in *.
  pose proof (search_spec l pv n els (wf_good _ H) ltac:(discriminate) S Ha) as Se. rewrite nd_cons.
  destruct (find_name n l) as [e|] eqn:Fe.
  - destruct Se as (i & Ei & Ni). rewrite Ei. cbn [bind]. unfold aget. rewrite Ni. cbn [bind].
    destruct (find_name_some n l e Fe) as [_ Nm].
    destruct els as [|n2 els].
    + rewrite Adv. cbn [bind]. destruct e as [m vt sz fi pos|m sub]; cbn [ename] in Nm; subst m; reflexivity.
    + destruct Adv as (pv' & Ea & S' & Es & _). rewrite Ea. cbn [bind].
      destruct e as [m vt sz fi pos|m sub]; [reflexivity|]. cbn [negb].
      rewrite (IH fuel sub pv') by (try assumption; try (rewrite Es; assumption); try (eapply wf_sub; eassumption); simpl in L |- *; lia).
      rewrite node_folder. reflexivity.
  - rewrite Se. reflexivity.
Qed.

(** the walk meets an empty folder before its last element *)
Fixpoint hollow (cs : list entry) (els : list (list Z)) : bool :=
  match els with
  | [] => false
  | n :: r =>
    match cs with
    | [] => true
    | _ => match find_name n cs with Some (Folder _ sub) => hollow sub r | _ => false end
    end
  end.
Lemma hollow_true els : forall cs, hollow cs els = true <-> exists a b, els = a ++ b /\ b <> [] /\ children_at cs a = Some [].
Proof.
  induction els as [|n els IH]; intros cs; cbn [hollow].
  - split; [discriminate|]. intros (a & b & E & N & _). destruct a; [|discriminate]. cbn in E. congruence.
  - destruct cs as [|c cs].
    + split; [|reflexivity]. intros _. exists [], (n :: els). repeat split. discriminate.
    + set (l := c :: cs). split.
      * destruct (find_name n l) as [[|m sub]|] eqn:F; try discriminate. intros H. apply IH in H as (a & b & -> & N & C). exists (n :: a), b.
        repeat split; [exact N|]. cbn [children_at]. rewrite F. exact C.
      * intros (a & b & E & N & C). destruct a as [|x a]; [discriminate C|]. injection E as <- E. cbn [children_at] in C.
        destruct (find_name n l) as [[|m sub]|] eqn:F; try discriminate. apply IH. exists a, b. auto.
Qed.
Lemma folder_get_children_spec els : forall fuel cs pv, wf cs -> shows pv els -> ascii_str (pv_string pv) -> length els <= fuel ->
  exists r, folder_get_children fuel cs pv = OK r /\
    match children_at cs els with Some sub => r = Some sub | None => r = if hollow cs els then Some [] else None end.
Proof.
  induction els as [|n els IH]; intros fuel cs pv H S Ha L; [destruct S as (_ & _ & E); discriminate|].
  destruct fuel as [|fuel]; [simpl in L; lia|]. cbn [folder_get_children].
  pose proof (shows_advance pv n els S) as Adv.
  destruct cs as [|c cs]; [exists (Some []); split; reflexivity|]. set (l := c :: cs) in *.
  pose proof (search_spec l pv n els (wf_good _ H) ltac:(discriminate) S Ha) as Se. cbn [children_at].
  assert (Hh : hollow l (n :: els) = match find_name n l with Some (Folder _ sub) => hollow sub els | _ => false end) by reflexivity. rewrite Hh. clear Hh.
  destruct (find_name n l) as [e|] eqn:Fe.
  - destruct Se as (i & Ei & Ni). rewrite Ei. cbn [bind]. unfold aget. rewrite Ni. cbn [bind].
    destruct e as [m vt sz fi pos|m sub]; [exists None; split; reflexivity|].
    destruct els as [|n2 els].
    + rewrite Adv. cbn [bind negb]. exists (Some sub). split; reflexivity.
    + destruct Adv as (pv' & Ea & S' & Es & _). rewrite Ea. cbn [bind negb].
      apply IH; try assumption; [eapply wf_sub; eassumption|rewrite Es; assumption|simpl in L |- *; lia].
  - rewrite Se. exists None. split; reflexivity.
Qed.

(** ** paths *)
Lemma new_abs s : is_cstr s -> absolute s -> exists pv, path_view_new s = OK pv /\ pv_string pv = s /\ view_ok pv /\
  elements (skipn (pv_end pv + 1) s) = elements s.
Proof.
  intros Hc [t ->]. unfold path_view_new. change (cget (47%Z :: t) 0) with (OK 47%Z). cbn [bind]. change (is_sep 47) with true. cbn [negb].
  rewrite cget_nth0 by (simpl; lia). cbn [bind].
  destruct (is_sep (nth 1 (47%Z :: t) 0%Z)) eqn:E1.
  - assert (exists y t', t = y :: t') as (y & t' & ->) by (destruct t; [discriminate|eauto]).
    rewrite scan_span; [|reflexivity|simpl; lia|simpl; lia]. cbn [bind]. cbn [skipn].
    pose proof (span_app is_sep t') as G. pose proof (span_fst is_sep t') as Sp.
    set (a := fst (span is_sep t')) in *. set (b := snd (span is_sep t')) in *. cbn [nth] in E1. apply Z.eqb_eq in E1. subst y.
    eexists. split; [reflexivity|]. cbn [pv_string pv_end pv_start]. split; [reflexivity|]. split.
    { unfold view_ok. cbn [pv_string pv_end pv_start]. rewrite <- G. cbn [length]. rewrite app_length. lia. }
    replace (2 + length a - 1 + 1) with (S (S (length a))) by lia. cbn [skipn]. rewrite <- G, skipn_app, skipn_all, Nat.sub_diag. cbn [app skipn].
    change (47%Z :: SEP :: a ++ b) with ([SEP; SEP] ++ a ++ b). rewrite elements_seps by reflexivity. symmetry. apply elements_seps. exact Sp.
  - eexists. split; [reflexivity|]. cbn [pv_string pv_end pv_start]. split; [reflexivity|]. split; [unfold view_ok; cbn; lia|].
    cbn [skipn Nat.add]. symmetry. apply elements_sep.
Qed.

Lemma new_advance s : is_cstr s -> absolute s -> exists pv, path_view_new s = OK pv /\ pv_string pv = s /\
  match elements s with
  | [] => path_view_advance pv = OK (pv, false)
  | _ => exists pv', path_view_advance pv = OK (pv', true) /\ pv_string pv' = s /\ shows pv' (elements s)
  end.
Proof.
  intros Hc Ha. destruct (new_abs s Hc Ha) as (pv & E & Es & [V1 V2] & El). exists pv. split; [assumption|]. split; [assumption|].
  destruct pv as [s' st en]. cbn [pv_string pv_start pv_end] in *. subst s'.
  destruct (advance_spec s st en Hc ltac:(lia)) as [[Q Ad]|(pv' & Ad & Hs & Hb & Hl & _ & He)].
  - rewrite El in Q. rewrite Q. exact Ad.
  - rewrite El in He. rewrite He. exists pv'. split; [assumption|]. split; [assumption|].
    split; [rewrite Hs; assumption|]. split; [unfold view_ok; rewrite Hs; lia|]. rewrite Hs. reflexivity.
Qed.

Lemma clean_start p : clean p -> exists pv pv', path_view_new p = OK pv /\ path_view_advance pv = OK (pv', true) /\
  pv_string pv' = p /\ pv_start pv' = 1 /\ shows pv' (elements p).
Proof.
  intros [Ha (c & t & -> & Hn)]. pose proof (ascii_is_cstr _ Ha) as Hc.
  destruct (new_advance (SEP :: c :: t) Hc ltac:(eexists; reflexivity)) as (pv & E & Es & Ad).
  assert (Hcc : (0 < c < 256)%Z) by (inversion Hc as [|? ? _ H2]; subst; inversion H2; assumption).
  assert (Epv : pv = {| pv_string := SEP :: c :: t; pv_start := 0; pv_end := 0 |}).
  { unfold path_view_new in E. change (cget (SEP :: c :: t) 0) with (OK SEP) in E. cbn [bind] in E. change (is_sep SEP) with true in E. cbn [negb] in E.
    change (cget (SEP :: c :: t) 1) with (OK c) in E. cbn [bind] in E. unfold is_sep in E at 1. destruct (Z.eqb_spec c SEP); [contradiction|]. congruence. }
  assert (X : exists pv', path_view_advance pv = OK (pv', true) /\ pv_start pv' = 1).
  { rewrite Epv. unfold path_view_advance. cbn [pv_string pv_end]. cbv zeta.
    rewrite scan_span by (try exact is_sep_0; simpl; lia). cbn [Nat.add skipn bind]. cbn [span].
    assert (Sc : is_sep c = false) by (unfold is_sep; destruct (Z.eqb_spec c SEP); [contradiction|reflexivity]). rewrite Sc. cbn [fst length Nat.add].
    change (cget (SEP :: c :: t) 1) with (OK c). cbn [bind]. unfold NUL. destruct (Z.eqb_spec c 0); [lia|].
    rewrite scan_span by (try exact in_elem_0; simpl; lia). cbn [bind]. eexists. split; [reflexivity|]. reflexivity. }
  destruct X as (pv' & Ad' & St). exists pv, pv'. split; [assumption|]. split; [assumption|].
  destruct (elements (SEP :: c :: t)) as [|e els]; [congruence|]. destruct Ad as (pv2 & Ad2 & S2 & Sh). assert (pv2 = pv') as -> by congruence.
  auto.
Qed.

Lemma elements_length_le s : length (elements s) <= S (length s).
Proof.
  unfold elements. assert (length (split_sep s) <= S (length s)).
  { induction s as [|c s IH]; [simpl; lia|]. simpl. destruct (c =? 47)%Z; [simpl in *; lia|]. destruct (split_sep s); simpl in *; lia. }
  etransitivity; [|exact H]. clear. induction (split_sep s) as [|x l IH]; [simpl; lia|]. simpl. destruct (nonempty x); simpl; lia.
Qed.
Lemma split_sep_in s e c : In e (split_sep s) -> In c e -> In c s.
Proof.
  revert e; induction s as [|x s IH]; intros e He Hc; cbn [split_sep] in He.
  - destruct He as [<-|[]]. contradiction.
  - destruct (x =? 47)%Z; [destruct He as [<-|He]; [contradiction|right; eapply IH; eassumption]|].
    destruct (split_sep s) as [|y ys] eqn:E.
    + destruct He as [<-|[]]. destruct Hc as [<-|[]]. left; reflexivity.
    + destruct He as [<-|He]; [|right; eapply IH; [right|]; eassumption]. destruct Hc as [<-|Hc]; [left; reflexivity|]. right. eapply IH; [left; reflexivity|assumption].
Qed.
Lemma elements_ascii s : ascii_str s -> Forall ascii_str (elements s).
Proof.
  intros H. apply Forall_forall. intros e He. apply filter_In in He as [He _]. apply Forall_forall. intros c Hc.
  unfold ascii_str in H. rewrite Forall_forall in H. apply H. eapply split_sep_in; eassumption.
Qed.

Lemma insert_folder_path_spec dir p : wf dir -> clean p -> (forall q i, prefix q (elements p) -> nd dir q <> Some (NFile i)) ->
  exists dir' a, insert_folder_path dir p = OK (dir', Some a) /\ wf dir' /\ resolves dir' a (elements p) /\
    (forall q, prefix q (elements p) -> nd dir' q = Some NFolder) /\ (forall q, ~ prefix q (elements p) -> nd dir' q = nd dir q).
Proof.
  intros H C Nf. destruct (clean_start p C) as (pv & pv' & E1 & E2 & Es & St & Sh). destruct C as [Ha (c & t & Ep & Hn)].
  unfold insert_folder_path. rewrite E1. cbn [bind]. rewrite E2. cbn [bind]. unfold directory_insert_folder. rewrite Es, St.
  assert (A : path_is_abs p = OK true) by (rewrite Ep; reflexivity). rewrite A. cbn [bind andb]. rewrite Nat.eqb_refl.
  apply folder_insert_folder_spec; auto; [apply elements_ascii; assumption|apply elements_length_le].
Qed.

Lemma get_file_spec dir path : wf dir -> ascii_str path -> absolute path -> (forall n i, nd dir [n] <> Some (NFile i)) ->
  get_file dir path = OK (as_file (last (elements path) []) (nd dir (elements path))).
Proof.
  intros H As Ab Top. destruct (new_advance path (ascii_is_cstr _ As) Ab) as (pv & E1 & Es & E2). unfold get_file. rewrite E1. cbn [bind].
  unfold directory_get_file. destruct dir as [|c dir].
  { destruct (elements path); reflexivity. }
  set (l := c :: dir) in *. assert (A : path_is_abs path = OK true) by (destruct Ab as [t ->]; reflexivity). rewrite Es, A. cbn [bind negb].
  destruct (elements path) as [|n els] eqn:El; [rewrite E2; reflexivity|].
  destruct E2 as (pv' & E2 & Es' & Sh). rewrite E2. cbn [bind negb].
  assert (As' : ascii_str (pv_string pv')) by (rewrite Es'; assumption).
  pose proof (search_spec l pv' n els (wf_good _ H) ltac:(discriminate) Sh As') as Se. rewrite nd_cons.
  destruct (find_name n l) as [e|] eqn:Fe; [|rewrite Se; reflexivity].
  destruct Se as (i & Ei & Ni). rewrite Ei. cbn [bind]. unfold aget. rewrite Ni. cbn [bind].
  pose proof (shows_advance pv' n els Sh) as Adv. destruct els as [|n2 els].
  - rewrite Adv. cbn [bind negb]. cbn [node_of]. specialize (Top n). rewrite nd_cons, Fe in Top. cbn [node_of] in Top.
    destruct e as [m vt sz fi pos|m sub]; [exfalso; eapply Top; reflexivity|reflexivity].
  - destruct Adv as (pv2 & Ea & S2 & Es2 & _). rewrite Ea. cbn [bind negb].
    destruct e as [m vt sz fi pos|m sub]; [reflexivity|].
    rewrite (folder_get_file_spec (n2 :: els)); try assumption.
    + rewrite node_folder. reflexivity.
    + eapply wf_sub; eassumption.
    + rewrite Es2; assumption.
    + rewrite Es2, Es'. pose proof (elements_length_le path). rewrite El in *. cbn [length] in *. lia.
Qed.

Lemma get_children_spec dir path : wf dir -> ascii_str path -> absolute path ->
  exists r, get_children dir path = OK r /\
    match children_at dir (elements path) with Some sub => r = Some sub | None => r = if hollow dir (elements path) then Some [] else None end.
Proof.
  intros H As Ab. destruct (new_advance path (ascii_is_cstr _ As) Ab) as (pv & E1 & Es & E2). unfold get_children. rewrite E1. cbn [bind].
  unfold directory_get_children. assert (A : path_is_abs path = OK true) by (destruct Ab as [t ->]; reflexivity). rewrite Es, A. cbn [bind negb].
  destruct dir as [|c dir]; [exists (Some []); split; [reflexivity|destruct (elements path); reflexivity]|].
  set (l := c :: dir) in *. destruct (elements path) as [|n els] eqn:El.
  - rewrite E2. exists (Some l). split; reflexivity.
  - destruct E2 as (pv' & E2 & Es' & Sh). rewrite E2. cbn [bind negb]. rewrite Es'. apply folder_get_children_spec; try assumption.
    + rewrite Es'; assumption.
    + pose proof (elements_length_le path). rewrite El in *. exact H0.
Qed.

(** ** histories *)
Lemma records_app cur a b : records cur (a ++ b) = records cur a ++ records (cur_of cur a) b.
Proof. revert cur; induction a as [|[p|n i] a IH]; intros cur; cbn; [reflexivity|apply IH|rewrite IH; reflexivity]. Qed.
Lemma cur_of_app cur a b : cur_of cur (a ++ b) = cur_of (cur_of cur a) b.
Proof. revert cur; induction a as [|[p|n i] a IH]; intros cur; cbn; auto. Qed.
Lemma folder_paths_app a b : folder_paths (a ++ b) = folder_paths a ++ folder_paths b.
Proof. induction a as [|[p|n i] a IH]; cbn; [reflexivity|rewrite IH; reflexivity|exact IH]. Qed.
Lemma folder_paths_in ops q : In q (folder_paths ops) <-> exists p, In (OpFolder p) ops /\ q = elements p.
Proof.
  induction ops as [|[p|n i] r IH]; cbn [folder_paths In].
  - split; [intros []|intros (p & [] & _)].
  - rewrite IH. split.
    + intros [<-|(p' & I & ->)]; [exists p; auto|exists p'; auto].
    + intros (p' & [I|I] & ->); [injection I as <-; left; reflexivity|right; exists p'; auto].
  - rewrite IH. split; intros (p' & I & ->); exists p'; (split; [|reflexivity]); [auto|destruct I; [discriminate|assumption]].
Qed.
Lemma last_record_app l q j p o : last_record l p o -> last_record (l ++ [(q, j)]) p (if list_eq_dec (list_eq_dec Z.eq_dec) q p then Some j else o).
Proof.
  intros H. destruct (list_eq_dec (list_eq_dec Z.eq_dec) q p) as [->|Ne].
  - exists l, []. split; [reflexivity|]. intros ? [].
  - destruct o as [i|]; cbn [last_record] in *.
    + destruct H as (a & b & -> & Hb). exists a, (b ++ [(q, j)]). rewrite <- app_assoc. split; [reflexivity|].
      intros k I. apply in_app_or in I as [I|[I|[]]]; [eapply Hb; eassumption|congruence].
    + intros k I. apply in_app_or in I as [I|[I|[]]]; [eapply H; eassumption|congruence].
Qed.
Lemma last_record_unique l p o o' : last_record l p o -> last_record l p o' -> o = o'.
Proof.
  destruct o as [i|], o' as [j|]; cbn [last_record]; auto.
  - intros (a & b & -> & Hb) (a' & b' & E & Hb'). revert a' E. induction a as [|x a IH]; intros [|y a'] E; cbn in E.
    + congruence.
    + injection E as <- E. exfalso. apply (Hb j). rewrite E. apply in_or_app. right. left. reflexivity.
    + injection E as -> <-. exfalso. apply (Hb' i). apply in_or_app. right. left. reflexivity.
    + injection E as _ E. eapply IH; eassumption.
  - intros (a & b & -> & _) H. exfalso. apply (H i). apply in_or_app. right. left. reflexivity.
  - intros H (a & b & -> & _). exfalso. apply (H j). apply in_or_app. right. left. reflexivity.
Qed.
Lemma last_record_in l p i : last_record l p (Some i) -> In (p, i) l.
Proof. intros (a & b & -> & _). apply in_or_app. right. left. reflexivity. Qed.

(** the tree [dir] stands for the history [ops] *)
Definition denotes (ops : list op) (dir : list entry) : Prop :=
  wf dir /\ forall p, match nd dir p with
            | Some (NFile i) => last_record (records [] ops) p (Some i)
            | Some NFolder => p = [] \/ is_folder_path ops p
            | None => last_record (records [] ops) p None /\ ~ is_folder_path ops p
            end.
Definition cur_ok (ops : list op) (dir : list entry) (cur : option addr) : Prop :=
  match cur with
  | Some a => resolves dir a (cur_of [] ops) /\ In (cur_of [] ops) (folder_paths ops)
  | None => ops = []
  end.

Definition noclash (ops : list op) : Prop := forall q i, In (q, i) (records [] ops) -> ~ is_folder_path ops q.
Lemma noclash_prefix a b : noclash (a ++ b) -> noclash a.
Proof.
  intros H q i I (p & Hp & Pr). apply (H q i).
  - rewrite records_app. apply in_or_app. auto.
  - exists p. split; [rewrite folder_paths_app; apply in_or_app; auto|assumption].
Qed.

Lemma denotes_folder ops dir : denotes ops dir -> noclash ops -> forall p, is_folder_path ops p -> nd dir p = Some NFolder.
Proof.
  intros [W D] Nc p F. specialize (D p). destruct (nd dir p) as [[i|]|].
  - exfalso. apply (Nc p i); [apply last_record_in; exact D|exact F].
  - reflexivity.
  - exfalso. apply (proj2 D). exact F.
Qed.

Definition prefix_dec q p : {prefix q p} + {~ prefix q p}.
Proof.
  revert p; induction q as [|n q IH]; intros p; [left; apply prefix_nil|].
  destruct p as [|m p]; [right; intros [r E]; discriminate|].
  destruct (list_eq_dec Z.eq_dec n m) as [->|Ne]; [|right; intros P; apply prefix_cons in P as [E _]; congruence].
  destruct (IH p) as [P|P]; [left|right]; [apply prefix_cons; auto|intros Q; apply prefix_cons in Q as [_ Q]; auto].
Defined.

Lemma step_folder ops dir p : denotes ops dir -> clean p -> noclash (ops ++ [OpFolder p]) ->
  exists dir' a, insert_folder_path dir p = OK (dir', Some a) /\ denotes (ops ++ [OpFolder p]) dir' /\ cur_ok (ops ++ [OpFolder p]) dir' (Some a).
Proof.
  intros [W D] C Nc.
  assert (Rec : records [] (ops ++ [OpFolder p]) = records [] ops) by (rewrite records_app; cbn; apply app_nil_r).
  assert (Fp : forall q, is_folder_path (ops ++ [OpFolder p]) q <-> is_folder_path ops q \/ prefix q (elements p)).
  { intros q. unfold is_folder_path. rewrite folder_paths_app. cbn. split.
    - intros (x & I & P). apply in_app_or in I as [I|[<-|[]]]; [left; eauto|right; assumption].
    - intros [(x & I & P)|P]; [exists x|exists (elements p)]; (split; [apply in_or_app; cbn; auto|assumption]). }
  destruct (insert_folder_path_spec dir p W C) as (dir' & a & E & W' & R & P1 & P2).
  { intros q i Pq Q. specialize (D q). rewrite Q in D. apply (Nc q i); [rewrite Rec; apply last_record_in; exact D|apply Fp; auto]. }
  exists dir', a. split; [exact E|]. split.
  - split; [exact W'|]. intros q. rewrite Rec. destruct (prefix_dec q (elements p)) as [Pq|Pq].
    + rewrite P1 by assumption. right. apply Fp. auto.
    + rewrite P2 by assumption. specialize (D q). destruct (nd dir q) as [[i|]|]; [exact D| |].
      * destruct D as [->|D]; [left; reflexivity|right; apply Fp; auto].
      * split; [tauto|]. rewrite Fp. tauto.
  - cbn [cur_ok]. rewrite cur_of_app. cbn [cur_of]. split; [exact R|]. rewrite folder_paths_app. apply in_or_app. cbn. auto.
Qed.

Lemma app_prefix_one (els q : list (list Z)) n : els ++ [n] = els ++ q -> q = [n].
Proof. intros E. apply app_inv_head in E. auto. Qed.

Lemma step_file ops dir a n i : denotes ops dir -> cur_ok ops dir (Some a) -> ascii_str n -> noclash (ops ++ [OpFile n i]) ->
  exists dir', insert_variable dir (Some a) n i = OK dir' /\ denotes (ops ++ [OpFile n i]) dir' /\ cur_ok (ops ++ [OpFile n i]) dir' (Some a).
Proof.
  intros Dn [R Cf] An Nc. pose proof Dn as [W D]. set (cur := cur_of [] ops) in *.
  assert (Rec : records [] (ops ++ [OpFile n i]) = records [] ops ++ [(cur ++ [n], i)]) by (rewrite records_app; reflexivity).
  assert (Fp : forall q, is_folder_path (ops ++ [OpFile n i]) q <-> is_folder_path ops q).
  { intros q. unfold is_folder_path. rewrite folder_paths_app. cbn. rewrite app_nil_r. reflexivity. }
  destruct (resolves_children dir a cur W R) as [sub Csub].
  assert (Ws : wf sub).
  { intros q s Q. apply (W (cur ++ q)). clear - Csub Q. revert dir Csub. induction cur as [|m c IH]; intros dir Csub; [injection Csub as ->; exact Q|].
    cbn [children_at app] in *. destruct (find_name m dir) as [[|? s']|]; try discriminate. apply IH. exact Csub. }
  assert (Nf : nd sub [n] <> Some NFolder).
  { rewrite <- (nd_app dir cur sub [n] Csub). intros Q. specialize (D (cur ++ [n])). rewrite Q in D.
    destruct D as [D|D]; [destruct cur; discriminate|].
    apply (Nc (cur ++ [n]) i); [rewrite Rec; apply in_or_app; right; left; reflexivity|apply Fp; exact D]. }
  destruct i as [[[vt sz] fi] pos].
  destruct (folder_insert_file_spec sub n vt sz fi pos Ws An Nf) as (sub' & Ef & Wf' & Nq).
  destruct (at_folder_spec a dir cur sub (fun cs => folder_insert_file cs n vt sz fi pos) sub' W R Csub Ef Wf') as (dir' & Ed & Wd & Rd & Cd & N1 & N2).
  exists dir'. split; [exact Ed|]. split.
  - split; [exact Wd|]. intros q. rewrite Rec.
    cut (match nd dir' q with
       | Some (NFile i) => last_record (records [] ops ++ [(cur ++ [n], (vt, sz, fi, pos))]) q (Some i)
       | Some NFolder => q = [] \/ is_folder_path ops q
       | None => last_record (records [] ops ++ [(cur ++ [n], (vt, sz, fi, pos))]) q None /\ ~ is_folder_path ops q end).
    { destruct (nd dir' q) as [[j|]|]; rewrite ?Fp; auto. }
    assert (Old : forall o, nd dir' q = nd dir q -> q <> cur ++ [n] -> last_record (records [] ops) q o ->
       last_record (records [] ops ++ [(cur ++ [n], (vt, sz, fi, pos))]) q o).
    { intros o _ Ne L. pose proof (last_record_app _ (cur ++ [n]) (vt, sz, fi, pos) q o L) as L'.
      destruct (list_eq_dec (list_eq_dec Z.eq_dec) (cur ++ [n]) q); [congruence|exact L']. }
    assert (Same : nd dir' q = nd dir q -> q <> cur ++ [n] -> match nd dir' q with
       | Some (NFile i) => last_record (records [] ops ++ [(cur ++ [n], (vt, sz, fi, pos))]) q (Some i)
       | Some NFolder => q = [] \/ is_folder_path ops q
       | None => last_record (records [] ops ++ [(cur ++ [n], (vt, sz, fi, pos))]) q None /\ ~ is_folder_path ops q end).
    { intros Q Ne. rewrite Q. specialize (D q). destruct (nd dir q) as [[j|]|]; [apply Old; auto|exact D|]. destruct D; split; [apply Old; auto|assumption]. }
    destruct (prefix_dec cur q) as [[r ->]|Pq].
    + rewrite N1, Nq. destruct r as [|m r].
      * specialize (D (cur ++ [])). rewrite (nd_app dir cur sub [] Csub) in D. exact D.
      * destruct (name_eqb m n) eqn:Em.
        -- apply name_eqb_eq in Em. subst m. destruct r as [|x r].
           ++ exists (records [] ops), []. split; [reflexivity|]. intros ? [].
           ++ (* below the variable: was there something? *)
              assert (F : ~ is_folder_path ops (cur ++ n :: x :: r)).
              { intros (p & Ip & Pp). apply (Nc (cur ++ [n]) (vt, sz, fi, pos)); [rewrite Rec; apply in_or_app; right; left; reflexivity|].
                exists p. split; [rewrite folder_paths_app; apply in_or_app; auto|]. destruct Pp as [z ->]. exists (x :: r ++ z). rewrite <- !app_assoc. reflexivity. }
              split; [|exact F]. intros j I. apply in_app_or in I as [I|[I|[]]].
              ** (* a record whose folder is recorded *)
                 assert (K : forall ops c0 q j, In (q, j) (records c0 ops) -> exists c m, q = c ++ [m] /\ (c = c0 \/ In c (folder_paths ops))).
                 { clear. induction ops as [|[p|m i] ops IH]; intros c0 q j I; cbn in I; [contradiction| |].
                   - destruct (IH _ _ _ I) as (c & m & -> & H). exists c, m. split; [reflexivity|]. right. cbn. destruct H as [->|H]; auto.
                   - destruct I as [I|I]; [injection I as <- <-; exists c0, m; auto|]. destruct (IH _ _ _ I) as (c & m' & -> & H). exists c, m'. cbn. auto. }
                 destruct (K _ _ _ _ I) as (c & m & Eq & Hc).
                 assert (Hl : exists z, c = cur ++ n :: z).
                 { clear - Eq. revert Eq. assert (G : forall (z : list (list Z)) y, cur ++ n :: y :: z = c ++ [m] -> exists w, c = cur ++ n :: w).
                   { intros z. induction z as [|y' z IH] using rev_ind; intros y E.
                     - exists []. change (cur ++ [n; y] = c ++ [m]) in E. replace (cur ++ [n; y]) with ((cur ++ [n]) ++ [y]) in E by (rewrite <- app_assoc; reflexivity).
                       apply app_inj_tail in E as [E _]. auto.
                     - exists (y :: z). replace (cur ++ n :: y :: z ++ [y']) with ((cur ++ n :: y :: z) ++ [y']) in E by (rewrite <- app_assoc; reflexivity).
                       apply app_inj_tail in E as [E _]. auto. }
                   apply G. }
                 destruct Hl as [z ->]. destruct Hc as [Hc|Hc]; [destruct cur; discriminate|].
                 apply (Nc (cur ++ [n]) (vt, sz, fi, pos)); [rewrite Rec; apply in_or_app; right; left; reflexivity|].
                 exists (cur ++ n :: z). split; [rewrite folder_paths_app; apply in_or_app; auto|]. exists z. rewrite <- app_assoc. reflexivity.
              ** injection I as I _. apply app_prefix_one in I. discriminate.
        -- apply name_eqb_neq in Em. specialize (Same). rewrite N1, Nq in Same. rewrite (proj2 (name_eqb_neq m n) Em) in Same.
           apply Same; [symmetry; apply (nd_app dir cur sub (m :: r) Csub)|].
           intros Q. symmetry in Q. apply app_prefix_one in Q. congruence.
    + apply Same; [apply N2; exact Pq|]. intros ->. apply Pq. exists [n]. reflexivity.
  - cbn [cur_ok]. rewrite cur_of_app, folder_paths_app. cbn. rewrite app_nil_r. split; assumption.
Qed.

Lemma run_spec ops : forall done dir cur, denotes done dir -> cur_ok done dir cur ->
  (cur = None -> match ops with OpFile _ _ :: _ => False | _ => True end) ->
  (forall p, In (OpFolder p) ops -> clean p) -> (forall n i, In (OpFile n i) ops -> ascii_str n) -> noclash (done ++ ops) ->
  exists dir' cur', run dir cur ops = OK (dir', cur') /\ denotes (done ++ ops) dir'.
Proof.
  induction ops as [|[p|n i] ops IH]; intros done dir cur D C First Hp Hn Nc.
  - rewrite app_nil_r. exists dir, cur. split; [reflexivity|assumption].
  - replace (done ++ OpFolder p :: ops) with ((done ++ [OpFolder p]) ++ ops) in * by (rewrite <- app_assoc; reflexivity).
    destruct (step_folder done dir p D (Hp p (or_introl eq_refl)) (noclash_prefix _ _ Nc)) as (dir' & a & E & D' & C').
    cbn [run]. rewrite E. cbn [bind]. apply (IH (done ++ [OpFolder p]) dir' (Some a)); auto; [discriminate| |]; intros; [apply Hp|eapply Hn]; right; eassumption.
  - replace (done ++ OpFile n i :: ops) with ((done ++ [OpFile n i]) ++ ops) in * by (rewrite <- app_assoc; reflexivity).
    destruct cur as [a|]; [|exfalso; exact (First eq_refl)].
    destruct (step_file done dir a n i D C (Hn n i (or_introl eq_refl)) (noclash_prefix _ _ Nc)) as (dir' & E & D' & C').
    cbn [run]. rewrite E. cbn [bind]. apply (IH (done ++ [OpFile n i]) dir' (Some a)); auto; [discriminate| |]; intros; [apply Hp|eapply Hn]; right; eassumption.
Qed.

Lemma denotes_nil : denotes [] [].
Proof.
  split; [exact wf_nil|]. intros [|n p]; cbn; [left; reflexivity|]. split; [intros j []|]. intros (x & [] & _).
Qed.

Lemma history_run ops : history_ok ops -> exists dir cur, run [] None ops = OK (dir, cur) /\ denotes ops dir.
Proof.
  intros (Hp & Hn & First & Nc). apply (run_spec ops [] [] None); auto; [exact denotes_nil|reflexivity].
Qed.

(** variables are never at top level *)
Lemma records_deep : forall ops c0 q j, (match ops with OpFile _ _ :: _ => c0 <> [] | _ => True end) ->
  (forall p, In (OpFolder p) ops -> elements p <> []) -> In (q, j) (records c0 ops) -> exists c m, q = c ++ [m] /\ c <> [].
Proof.
  induction ops as [|[p|m i] ops IH]; intros c0 q j F Hp I; cbn in I; [contradiction| |].
  - apply (IH (elements p) q j); auto.
    + destruct ops as [|[]]; auto. apply Hp. left; reflexivity.
    + intros. apply Hp. right; assumption.
  - destruct I as [I|I]; [injection I as <- <-; exists c0, m; auto|]. apply (IH c0 q j); auto; [destruct ops as [|[]]; auto|].
    intros. apply Hp. right; assumption.
Qed.
Lemma clean_elements p : clean p -> elements p <> [].
Proof. intros C. destruct (clean_start p C) as (pv & pv' & _ & _ & _ & _ & (_ & _ & E)). rewrite E. discriminate. Qed.

Lemma denotes_top ops dir : history_ok ops -> denotes ops dir -> forall n i, nd dir [n] <> Some (NFile i).
Proof.
  intros (Hp & Hn & First & Nc) [W D] n i Q. specialize (D [n]). rewrite Q in D. apply last_record_in in D.
  destruct (records_deep ops [] [n] i) as (c & m & E & Ne); auto.
  - destruct ops as [|[]]; auto.
  - intros p I. apply clean_elements, Hp, I.
  - destruct c as [|x c]; [congruence|]. injection E as _ E. destruct c; discriminate.
Qed.
