(** * C22: INCLUDE_TRANSFORM and DEFINE_TRANSFORMATION *)
From Coq Require Import QArith.
From Verif Require Import CBase CBaseFacts CardModel CardSpec CardProofs CardFloat CardType TransformModel TransformSpec TransformProofs.
Open Scope nat_scope.
Open Scope list_scope.

(** For every number and content of cards (padded to whole fields, integers
    without '+'): every member is what its field says, or its default.
    Exact arithmetic for the floats (rounding: C16_float_rounded). *)
Theorem C22_include_transform_partial cards : it_cards_ok cards ->
  exists it, key_parse_include_transform Qarith Qftoi cards = OK it /\ it_meaning cards it.
Proof. apply it_cards_spec. Qed.

Theorem C22_define_transformation_partial cards is_title : dt_cards_ok cards is_title ->
  exists dt, key_parse_define_transformation Qarith Qftoi cards is_title = OK dt /\ dt_meaning cards is_title dt.
Proof. apply dt_cards_spec. Qed.

(** What is missing: a value card that is not padded runs past its
    terminator, an integer written with '+' is stored as 0, and a float that
    does not fit is undefined behaviour. *)
Theorem C22_short_card_refuted : key_parse_include_transform Qarith Qftoi [bs "a.k"; bs "         1    2"] = UB.
Proof. vm_compute. reflexivity. Qed.

Theorem C22_plus_refuted : exists it,
  key_parse_include_transform Qarith Qftoi [bs "a.k"; bs "        +7"] = OK it /\ idnoff it = 0%Z.
Proof. eexists. split; [vm_compute; reflexivity|]. reflexivity. Qed.

Theorem C22_big_float_refuted :
  key_parse_include_transform Qarith Qftoi [bs "a.k"; bs "     1e300"] = UB.
Proof. vm_compute. reflexivity. Qed.

(** Two of the clauses spelled out: blank fields and missing cards leave the
    default. *)
Theorem C22_blank_is_default s d v : blanks s -> int_member (Some s) d v -> v = d.
Proof.
  assert (K : forall (b sgt ip r : list Z) sg, blanks (b ++ sgt ++ ip ++ r) -> sign_text sgt sg -> digits ip -> ip <> [] -> False).
  { intros b sgt ip r sg Hb Hs Hi Ni. destruct ip as [|x ip]; [congruence|].
    unfold blanks in Hb. rewrite !Forall_app in Hb. destruct Hb as (_ & _ & Hb & _). inversion Hb; inversion Hi; subst. unfold SPACE in *. lia. }
  intros Hb [[(b & sgt & sg & ip & t & E & B & Sg & D & N & _) _]|[[(b & sgt & sg & ip & fr & ex & t & E & B & Sg & D & N & _) _]|(_ & _ & Q)]].
  - exfalso. rewrite E in Hb. eapply K; eauto.
  - exfalso. rewrite E in Hb. eapply K; eauto.
  - exact Q.
Qed.

(** The hypotheses can be checked by evaluation ... *)
Definition cstr_check (s : cstr) : bool := forallb (fun b => (0 <? b)%Z && (b <? 256)%Z) s.
Definition readable_check (o : option (list Z)) : bool :=
  match o with
  | None => true
  | Some f => cstr_check f && (length f <=? 10) && forallb (fun c => negb (c =? PLUS)%Z) f &&
    match card_parse_float_width Qarith f 0 10 with
    | OK (v, false) => let z := Qtrunc v in ((- 2 ^ 63 <=? z) && (z <? 2 ^ 63))%Z
    | _ => true
    end
  end.
Lemma cstr_check_ok s : cstr_check s = true -> is_cstr s.
Proof. intros H. apply Forall_forall. intros x Hx. apply (proj1 (forallb_forall _ _) H) in Hx. lia. Qed.
Lemma readable_check_ok o : readable_check o = true -> int_readable o.
Proof.
  intros H t ->. cbn [readable_check] in H. apply andb_prop in H as [H Hf]. apply andb_prop in H as [H Hp]. apply andb_prop in H as [Hc Hl].
  apply cstr_check_ok in Hc. apply Nat.leb_le in Hl. split.
  - intros I. apply (proj1 (forallb_forall _ _) Hp) in I. cbn in I. discriminate.
  - intros sg ip fr ex T. assert (I : in_card t 0 10) by (repeat split; [assumption|lia|lia]).
    assert (Ff : field t 0 10 = t) by (unfold field; cbn [skipn]; apply firstn_all2; lia). rewrite <- Ff in T.
    destruct (PropCard.C16_float_exact t 0 10 sg ip fr ex I T) as (v & R & Q). rewrite R in Hf. rewrite <- (Qtrunc_comp _ _ Q).
    apply andb_prop in Hf as [H1 H2]. lia.
Qed.
Definition padded_check (s : cstr) : bool := cstr_check s && (length s <=? 250) && (length s mod 10 =? 0).
Lemma padded_check_ok s : padded_check s = true -> padded s.
Proof.
  intros H. apply andb_prop in H as [H Hd]. apply andb_prop in H as [Hc Hl]. apply cstr_check_ok in Hc. apply Nat.leb_le in Hl. apply Nat.eqb_eq in Hd.
  split; [assumption|]. split; [assumption|]. apply Nat.mod_divide; [lia|assumption].
Qed.

(** ... and are met by this keyword. *)
Definition C22_cards : list cstr :=
  [bs "  part.k "; bs "      1000      2.75          "; bs "        -3                pre_     -suf ";
   bs "       1.5                1000         K         1"; bs "77"].
Example C22_case : it_cards_ok C22_cards /\ exists it, key_parse_include_transform Qarith Qftoi C22_cards = OK it /\
  file_name it = Some (bs "part.k" ++ [NUL]) /\ idnoff it = 1000%Z /\ ideoff it = 2%Z /\ idpoff it = 0%Z /\
  idroff it = (-3)%Z /\ prefix it = Some (bs "pre_" ++ [NUL]) /\ suffix it = Some (bs "-suf" ++ [NUL]) /\
  (fctmas it == 3 # 2)%Q /\ (fcttim it == 1)%Q /\ (fctlen it == 1000)%Q /\
  fcttem it = Some (bs "K" ++ [NUL]) /\ incout1 it = 1%Z /\ tranid it = 77%Z.
Proof.
  split.
  - split; [repeat (constructor; [apply cstr_check_ok; vm_compute; reflexivity|]); constructor|]. split.
    { intros k s Hk E. destruct k as [|[|[|[|k]]]]; try lia; cbn in E; injection E as <-; apply padded_check_ok; vm_compute; reflexivity. }
    split; [intros j Hj; do 7 (destruct j as [|j]; [apply readable_check_ok; vm_compute; reflexivity|]); lia|].
    split; [apply readable_check_ok; vm_compute; reflexivity|]. split; apply readable_check_ok; vm_compute; reflexivity.
  - eexists. split; [vm_compute; reflexivity|]. cbn. repeat split; reflexivity.
Qed.

Definition C22_dt_cards : list cstr :=
  [bs "My title"; bs "        12"; bs "TRANSL          1.00       2.0      -3e1"; []; bs "SCALE              2"].
Example C22_dt_case : dt_cards_ok C22_dt_cards true /\ exists dt, key_parse_define_transformation Qarith Qftoi C22_dt_cards true = OK dt /\
  dt_title dt = Some (bs "My title" ++ [NUL]) /\ dt_tranid dt = 12%Z /\
  map to_name (dt_options dt) = [bs "TRANSL" ++ [NUL]; bs "NULL" ++ [NUL]; bs "SCALE" ++ [NUL]].
Proof.
  split.
  - split; [repeat (constructor; [apply cstr_check_ok; vm_compute; reflexivity|]); constructor|]. split.
    + cbn [C22_dt_cards skipn]. repeat (constructor; [apply padded_check_ok; vm_compute; reflexivity|]). constructor.
    + apply readable_check_ok. vm_compute. reflexivity.
  - eexists. split; [vm_compute; reflexivity|]. cbn. repeat split; reflexivity.
Qed.
