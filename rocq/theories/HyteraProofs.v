(** The hytera parsers meet their specification. *)
From Verif Require Import PyBase Runtime Codec CodecSpec CodecProofs Spec DecSpec RuntimeProofs DecProofs Enums EnumProofs Getters HyteraModel HyteraSpec HyteraRuns.
From Coq Require Import ZifyBool.
Ltac Zify.zify_post_hook ::= Z.div_mod_to_equations.
Open Scope string_scope.
Open Scope list_scope.
Open Scope Z_scope.

(** make enum comparisons numeric *)
Ltac codes :=
  repeat match goal with
  | |- context [eq_member ?E ?n (resolve_enum ?E ?z)] =>
      let c := eval vm_compute in (en_code (en_members E) n) in
      match c with Some ?c' => rewrite (eq_member_code E n c' z) by reflexivity end
  end.
Ltac leaf := rewrite ?runM_ret; split; [try reflexivity | repeat match goal with H : fits _ _ _ = true |- _ => apply fits_iff in H end; try lia].
Ltac eqbs :=
  repeat match goal with
  | |- context [Z.eqb ?x ?y] => is_zlit x; is_zlit y; let r := eval vm_compute in (Z.eqb x y) in change (Z.eqb x y) with r
  | N : ?z <> ?c |- context [?z =? ?c] => rewrite (proj2 (Z.eqb_neq z c) N)
  end; cbv iota.
(** case analysis over the keys of a dispatch table on [z] *)
Ltac pick z t :=
  codes;
  let ks := eval vm_compute in (map fst t) in
  let zz := fresh "zz" in
  remember z as zz eqn:Hzz;
  case_codes zz ks;
  try (match goal with E : zz = ?c |- _ => is_zlit c; rewrite E in * |- * end);
  cbn [select]; eqbs.
Ltac pos := norm_lits; first [rewrite at_byte by reflexivity | idtac]; norm_lits.
Ltac blens := repeat match goal with H : fits _ _ _ = true |- _ => apply fits_iff in H end; lia.
Ltac dec_tab := eapply dec_table; [runs1|reflexivity|lia|reflexivity].

Section S.
Context (rt : runtime).


Lemma d_rrs : runs_dec (p_RadioRegistrationService rt) rrs_at.
Proof.
  intros b k Hk. unfold p_RadioRegistrationService, rrs_at, table, rrs_table.
  destruct (ubits b (8 * k + 8) 8 =? 128) eqn:E1; destruct (ubits b (8 * k + 8) 8 =? 130) eqn:E2; cbn [orb app fs_end f_off f_kind].
  all: flds; codes; rewrite ?E1, ?E2; cbn [orb]; cbv iota; flds.
  all: rewrite at_byte by reflexivity; norm_lits; leaf.
Qed.

Lemma d_dds : runs_dec (p_DataDeliveryStates rt) dds_at.
Proof. eapply dec_table; [runs1|reflexivity|lia|reflexivity]. Qed.




Lemma d_dtp_request ml : runs_dec (p_DataTransmitProtocol_DtpRequest rt ml) (dtp_request ml).
Proof.
  intros b k Hk. unfold p_DataTransmitProtocol_DtpRequest, dtp_request, L_dtp_numbered. flds. pos.
  apply step_text; [blens|]. intros. leaf. do 3 f_equal. lia.
Qed.
Lemma d_dtp_slice ml : runs_dec (p_DataTransmitProtocol_DataSliceTransmit rt ml) (dtp_slice ml).
Proof.
  intros b k Hk. unfold p_DataTransmitProtocol_DataSliceTransmit, dtp_slice, L_dtp_numbered. flds. pos.
  apply step_bytes; [blens|]. intros. leaf. do 3 f_equal. lia.
Qed.

Lemma d_dtp : runs_dec (p_DataTransmitProtocol rt) dtp_at.
Proof.
  intros b k Hk. unfold p_DataTransmitProtocol, dtp_at, L_DataTransmitProtocol, dtp_bodies. flds. pos.
  pick (ubits b (8 * k + 8) 8) (dtp_bodies 0).
  all: first [eapply step_part; [first [apply d_dtp_request | apply d_dtp_slice | dec_tab]|blens|]; intros ? ? ? ?; cbn [fst snd] | apply step_nopart; cbn [fst snd]].
  all: leaf.
Qed.

Lemma option_flag_value {A} b i (X : Z -> M A) s :
  runM (bind (enum_value (resolve_enum TextMessageProtocol_OptionFlags (ubits b i 1))) X) s
  = runM (X (if bit b i then 1 else 0)) s.
Proof. rewrite ubits_1. destruct (bit b i); reflexivity. Qed.

Lemma d_tmp : runs_dec (p_TextMessageProtocol rt) tmp_at.
Proof.
  intros b k Hk. unfold p_TextMessageProtocol, tmp_at, TextMessageProtocol_option_sum_len. cbv zeta.
  pose proof (ubits_bound b (8 * k + 32) 16 ltac:(lia)) as Hol.
  destruct (Z.eq_dec (ubits b (8 * k + 8) 8) 0xA1) as [E|N1];
  [|destruct (Z.eq_dec (ubits b (8 * k + 8) 8) 0xA2) as [E|N2];
  [|destruct (Z.eq_dec (ubits b (8 * k + 8) 8) 0xB1) as [E|N3];
  [|destruct (Z.eq_dec (ubits b (8 * k + 8) 8) 0xB2) as [E|N4]]]].
  all: destruct (bit b (8 * k + 1)) eqn:Ho.
  all: unfold tmp_fixed; cbv zeta; try rewrite E; eqbs; cbn [app orb fs_end f_off f_kind kwidth nwidth]; norm_lits.
  all: do 6 fld1; rewrite option_flag_value, Ho; codes; try rewrite E; cbv iota; eqbs; cbn [negb orb]; cbv iota; flds; cbn [needed]; flds.
  all: pos; cbn [rbind fst snd].
  all: match goal with |- context [?x - 4 - 4 - 4] => replace (x - 4 - 4 - 4) with (x - 12) by lia | _ => idtac end.
  all: repeat (lazymatch goal with
       | |- agrees _ _ (runM (bind (read_str _ _ _) _) _) (rbind (rbind (text_at _ _ _ _) _) _) => apply agrees_rbind_assoc
       | |- agrees _ _ (runM (bind (vstr _ _ _) _) _) (rbind (rbind (text_at _ _ _ _) _) _) => apply agrees_rbind_assoc
       | |- agrees _ _ (runM (bind (read_str _ _ _) _) _) (rbind (text_at _ _ _ _) _) => apply step_text; [blens|intros; cbn [rbind fst snd]]
       | |- agrees _ _ (runM (bind (vstr _ _ _) _) _) (rbind (text_at _ _ _ _) _) => apply step_vstr; [blens|intros; cbn [rbind fst snd]]
       | |- agrees _ _ (runM (bind (bind _ _) _) _) _ => rewrite step_assoc
       | |- agrees _ _ (runM (bind (ret _) _) _) _ => rewrite step_ret
       | |- agrees _ _ (runM (bind (some _) _) _) _ => unfold some
       | |- agrees _ _ (runM (bind none _) _) _ => unfold none
       | |- agrees _ _ (runM (bind (needed _ _) _) _) _ => cbn [needed]
       end; cbv beta).
  all: leaf.
Qed.

Lemma d_quick_gps : runs_dec (p_LocationProtocol_ConditionQuickGpsRequest rt) quick_gps_request.
Proof.
  intros b k Hk. unfold p_LocationProtocol_ConditionQuickGpsRequest, quick_gps_request, table, L_quick_gps_request.
  destruct (ubits b (8 * k + 64) 8 =? 1) eqn:E1; cbn [app fs_end f_off f_kind].
  all: flds; codes; rewrite ?E1; cbv iota; flds; rewrite at_byte by reflexivity; norm_lits; leaf.
Qed.

Lemma d_lp : runs_dec (p_LocationProtocol rt) lp_at.
Proof.
  intros b k Hk. unfold p_LocationProtocol, lp_at, L_LocationProtocol, lp_bodies. flds. pos.
  rewrite ?Z.add_0_r.
  pick (ubits b (8 * k) 16) lp_bodies.
  all: first [eapply step_part; [first [apply d_quick_gps | dec_tab]|blens|]; intros ? ? ? ?; cbn [fst snd] | apply step_nopart; cbn [fst snd]].
  all: leaf.
Qed.

End S.
