(** * Property C101: the files of a pattern (Windows) *)
From Verif Require Import CBase CBaseFacts GlobModel GlobSpec GlobProofs.

(** Every name the system reports becomes a path: the folder of the pattern and
    the name; in the same order, none is lost.  For names that are at most as long
    as the folder. *)
Theorem C101_paths_partial : forall pattern folder names, folder_of pattern folder -> Forall (fun x => length x <= length folder \/ folder = []) names ->
  Forall (fun c => c <> NUL) pattern -> Forall (Forall (fun c => c <> NUL)) names ->
  exists l, binout_glob pattern names = OK l /\ Forall2 (fun b x => held b = OK (folder ++ x)) l names.
Proof.
  intros pattern folder names F Fl Np Nn. assert (Ne : pattern <> []) by (destruct F as (d & r & c & -> & _); destruct folder; [destruct r; discriminate|discriminate]).
  unfold binout_glob. rewrite (parent_ok pattern folder F Ne). cbn [bind]. destruct folder as [|c0 f0] eqn:Ef.
  - eexists. split; [reflexivity|]. clear Fl F. induction Nn as [|x l H _ IH]; cbn [map]; constructor; [|exact IH]. pose proof (held_string x [] H) as E. rewrite app_nil_r in E. exact E.
  - rewrite <- Ef in *. assert (Lf : 0 < length folder) by (subst folder; cbn; lia). assert (Ep : exists r, pattern = folder ++ r) by (destruct F as (d & r & c & -> & _); eauto).
    destruct Ep as (r & Ep). rewrite Ep in *. clear F Ne Ef c0 f0 Ep. apply Forall_app in Np as [Nf _]. induction names as [|x names IH]; [exists []; split; [reflexivity|constructor]|].
    inversion Fl as [|? ? [L|L] Fl']; subst; [|cbn in Lf; lia]. inversion Nn as [|? ? Nx Nn']; subst. destruct (IH Fl' Nn') as (l & E & G). destruct (prepend_ok folder r x Lf L) as (b & Eb & Hb).
    exists (b :: l). cbn [prepend_all]. rewrite Eb. cbn [bind]. rewrite E. split; [reflexivity|]. constructor; [|exact G]. rewrite Hb. pose proof (held_string (folder ++ x) [] ltac:(apply Forall_app; auto)) as H. rewrite app_nil_r in H. exact H.
Qed.
(** A name longer than the folder of the pattern: memcpy with overlapping regions. *)
Theorem C101_overlap_refuted : forall pattern folder names name, folder_of pattern folder -> folder <> [] -> length folder < length name -> Forall (fun x => length x <= length folder) names ->
  binout_glob pattern (names ++ [name]) = UB.
Proof.
  intros pattern folder names name F Ne L Fl. assert (Np : pattern <> []) by (destruct F as (d & r & c & -> & _); destruct folder; [congruence|discriminate]).
  unfold binout_glob. rewrite (parent_ok pattern folder F Np). cbn [bind]. destruct folder as [|c0 f0] eqn:Ef; [congruence|]. rewrite <- Ef in *.
  assert (Lf : 0 < length folder) by (subst folder; cbn; lia). assert (Ep : exists r, pattern = folder ++ r) by (destruct F as (d & r & c & -> & _); eauto). destruct Ep as (r & ->).
  clear Ef. induction Fl as [|x l Lx _ IH]; cbn [app prepend_all]; [rewrite prepend_overlap by lia; reflexivity|].
  destruct (prepend_ok folder r x Lf Lx) as (b & -> & _). cbn [bind]. rewrite IH. reflexivity.
Qed.
(** The empty pattern: the index underflows. *)
Theorem C101_empty_refuted : forall names, binout_glob [] names = UB.
Proof. reflexivity. Qed.
(** Every pattern of at least one character has exactly one folder. *)
Theorem C101_folder : forall pattern, pattern <> [] -> exists folder, folder_of pattern folder /\ forall f, folder_of pattern f -> f = folder.
Proof.
  intros pattern Ne. assert (E : exists folder, folder_of pattern folder).
  { destruct (@exists_last _ pattern Ne) as (p & c & ->). clear Ne. induction p as [|x p IH] using rev_ind.
    - exists [], [], [], c. split; [reflexivity|]. split; [left; reflexivity|constructor].
    - destruct (win_sep x) eqn:Es.
      + exists (p ++ [x]), p, [], c. split; [reflexivity|]. split; [right; exists x; split; [reflexivity|apply win_sep_spec; exact Es]|constructor].
      + destruct IH as (f & d & r & c' & E & H & P). rewrite app_assoc in E. apply app_inj_tail in E as [E <-].
        exists f, d, (r ++ [x]), c. split; [rewrite E, <- !app_assoc; reflexivity|]. split; [exact H|]. apply Forall_app. split; [exact P|]. constructor; [|constructor]. rewrite <- win_sep_spec. congruence. }
  destruct E as (f & F). exists f. split; [exact F|]. intros f2 F2. symmetry. apply (folder_unique pattern); assumption.
Qed.
Example C101_example : folder_of (bs "C:\results\run1\binout*") (bs "C:\results\run1\") /\
  exists b, binout_glob (bs "C:\results\run1\binout*") [bs "binout0000"] = OK [b] /\ held b = OK (bs "C:\results\run1\binout0000").
Proof.
  split; [exists (bs "C:\results\run1"), (bs "binout"), 42%Z; split; [reflexivity|]; split; [right; exists 92%Z; split; [reflexivity|left; reflexivity]|]|].
  - unfold plain, separator. assert (E : bs "binout" = [98;105;110;111;117;116]%Z) by (vm_compute; reflexivity). rewrite E. repeat (constructor; [lia|]). constructor.
  - eexists. split; [vm_compute; reflexivity|]. vm_compute. reflexivity.
Qed.
Example C101_overlap_example : binout_glob (bs "run\binout*") [bs "binout0000"] = UB.
Proof. vm_compute. reflexivity. Qed.
Print Assumptions C101_paths_partial.
Print Assumptions C101_overlap_refuted.
Print Assumptions C101_folder.
Print Assumptions C101_empty_refuted.
