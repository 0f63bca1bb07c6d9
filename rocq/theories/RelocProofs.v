(** Parsers whose result does not depend on where in the stream the message begins.  (Support for C57.) *)
From Verif Require Import PyBase Runtime Codec Spec RuntimeProofs Enums Getters EtsiModel HomebrewModel HyteraModel MotorolaModel AllParsers PropGeneral2.
Open Scope string_scope.
Open Scope list_scope.
Open Scope Z_scope.

(** the same stream with other bytes in front of it *)
Definition behind (pre : bytes) (s : stream) : stream :=
  {| s_buf := pre ++ s_buf s; s_pos := List.length pre + s_pos s; s_bits := s_bits s; s_left := s_left s |}.

Definition moved {A} (pre : bytes) (rs : res A * stream) : res A * stream := (fst rs, behind pre (snd rs)).
Definition relocates {A} (m : M A) : Prop :=
  forall (pre : bytes) (s : stream), fst (m s) <> Err OutOfFuel -> m (behind pre s) = moved pre (m s).

Lemma rl_ret {A} (a : A) : relocates (ret a). Proof. intros pre s _. reflexivity. Qed.
Lemma rl_fail {A} e : relocates (@fail A e). Proof. intros pre s _. reflexivity. Qed.
Lemma rl_lift {A} (r : res A) : relocates (lift r). Proof. intros pre s _. reflexivity. Qed.
Lemma rl_bind {A B} (m : M A) (k : A -> M B) : relocates m -> (forall a, relocates (k a)) -> relocates (bind m k).
Proof.
  intros H1 H2 pre s N. unfold bind in *. specialize (H1 pre s). destruct (m s) as [[a|e] s1]; cbn [fst] in *.
  - rewrite H1 by discriminate. cbn [moved fst snd]. now apply H2.
  - rewrite H1 by congruence. reflexivity.
Qed.
Lemma rl_align : relocates align_to_byte. Proof. intros pre s _. reflexivity. Qed.
Lemma skip_behind (pre l : bytes) k : skipn (List.length pre + k) (pre ++ l) = skipn k l.
Proof. rewrite skipn_app, skipn_all2 by lia. cbn [app]. f_equal. lia. Qed.
Lemma raw_behind n pre s : raw_read_bytes n (behind pre s) = moved pre (raw_read_bytes n s).
Proof.
  unfold raw_read_bytes. destruct (n <? 0); [reflexivity|]. unfold io_read. cbn [behind s_pos s_buf]. rewrite skip_behind. cbv zeta.
  set (g := if _ <=? n then _ else _). destruct (blen g <? n); unfold moved, behind, set_pos; cbn [fst snd s_buf s_pos s_bits s_left]; rewrite Nat.add_assoc; reflexivity.
Qed.
Lemma rl_bytes rt n : relocates (read_bytes rt n).
Proof. intros pre s _. unfold read_bytes. rewrite <- raw_behind. destruct rt; reflexivity. Qed.
Lemma rl_full rt : relocates (read_bytes_full rt).
Proof.
  intros pre s _. unfold read_bytes_full. destruct rt; cbn [auto_align align_state behind s_pos s_buf]; rewrite skip_behind; cbv zeta;
    unfold moved, behind, set_pos; cbn [fst snd s_buf s_pos s_bits s_left]; rewrite Nat.add_assoc; reflexivity.
Qed.
Lemma rl_bits n : relocates (read_bits n).
Proof.
  intros pre s _. unfold read_bits. cbn [s_left s_pos s_bits s_buf behind]. cbv zeta. destruct (0 <? n - s_left s); [|reflexivity].
  set (s1 := {| s_buf := s_buf s; s_pos := s_pos s; s_bits := s_bits s; s_left := (- (n - s_left s)) mod 8 |}).
  change {| s_buf := pre ++ s_buf s; s_pos := List.length pre + s_pos s; s_bits := s_bits s; s_left := (- (n - s_left s)) mod 8 |} with (behind pre s1).
  rewrite raw_behind. destruct (raw_read_bytes ((n - s_left s - 1) / 8 + 1) s1) as [[y|e] s2]; reflexivity.
Qed.
Lemma rl_eof rt : relocates (is_eof rt).
Proof.
  intros pre s _. unfold is_eof. cbn [behind s_left]. destruct (0 <? s_left s); [reflexivity|]. destruct rt.
  - unfold io_read. cbn [behind s_pos s_buf]. rewrite skip_behind. cbv zeta. set (g := if _ <=? 1 then _ else _). destruct g; [|reflexivity].
    unfold moved, behind, set_pos; cbn [fst snd s_buf s_pos s_bits s_left]; rewrite Nat.add_assoc; reflexivity.
  - cbn [behind s_buf s_pos]. rewrite app_length. unfold moved. cbn [fst snd]. do 2 f_equal.
    destruct (Nat.leb_spec (List.length (s_buf s)) (s_pos s)), (Nat.leb_spec (List.length pre + List.length (s_buf s)) (List.length pre + s_pos s)); lia || reflexivity.
Qed.
Lemma rl_fuel {A} (loop : nat -> M A) : budget_free loop -> (forall n, relocates (loop n)) -> relocates (with_fuel loop).
Proof.
  intros Hb H pre s N. unfold with_fuel in *. cbn [behind s_buf]. rewrite app_length.
  assert (E : loop (S (List.length pre + List.length (s_buf s))) s = loop (S (List.length (s_buf s))) s) by (apply Hb; [exact N|lia]).
  rewrite <- E in *. now apply H.
Qed.

Create HintDb reloc discriminated.
#[global] Hint Constants Opaque : reloc.
#[global] Hint Variables Opaque : reloc.
Ltac rl := repeat match goal with
  | |- relocates (bind _ _) => apply rl_bind; [|intros ?]
  | |- relocates (if ?c then _ else _) => destruct c
  | |- relocates (match ?c with _ => _ end) => destruct c
  | |- relocates (ret _) => apply rl_ret
  | |- relocates (fail _) => apply rl_fail
  | |- relocates (lift _) => apply rl_lift
  | |- relocates (obj _ _) => unfold obj
  | |- relocates (seq _) => cbn [seq]
  | |- relocates (with_fuel _) => apply rl_fuel; [apply C03_budget_is_irrelevant|intros ?]
  | |- relocates _ => solve [auto 6 with reloc]
  end.
Lemma rl_u1 rt : relocates (read_u1 rt). Proof. apply rl_bind; [apply rl_bytes|intros; apply rl_ret]. Qed.
Lemma rl_u2be rt : relocates (read_u2be rt). Proof. apply rl_bind; [apply rl_bytes|intros; apply rl_ret]. Qed.
Lemma rl_u4be rt : relocates (read_u4be rt). Proof. apply rl_bind; [apply rl_bytes|intros; apply rl_ret]. Qed.
Lemma rl_u2le rt : relocates (read_u2le rt). Proof. apply rl_bind; [apply rl_bytes|intros; apply rl_ret]. Qed.
Lemma rl_u4le rt : relocates (read_u4le rt). Proof. apply rl_bind; [apply rl_bytes|intros; apply rl_ret]. Qed.
Lemma rl_s2be rt : relocates (read_s2be rt). Proof. apply rl_bind; [apply rl_bytes|intros; apply rl_ret]. Qed.
Lemma rl_flag : relocates read_flag. Proof. apply rl_bind; [apply rl_bits|intros; apply rl_ret]. Qed.
Lemma rl_vint m : relocates m -> relocates (vint m). Proof. intros H. apply rl_bind; [exact H|intros; apply rl_ret]. Qed.
Lemma rl_vbits n : relocates (vbits n). Proof. apply rl_vint, rl_bits. Qed.
Lemma rl_vflag : relocates vflag. Proof. apply rl_bind; [apply rl_flag|intros; apply rl_ret]. Qed.
Lemma rl_venum E m : relocates m -> relocates (venum E m). Proof. intros H. apply rl_bind; [exact H|intros; apply rl_ret]. Qed.
Lemma rl_vbytes rt n : relocates (vbytes rt n). Proof. apply rl_bind; [apply rl_bytes|intros; apply rl_ret]. Qed.
Lemma rl_vfull rt : relocates (vfull rt). Proof. apply rl_bind; [apply rl_full|intros; apply rl_ret]. Qed.
Lemma rl_str rt e n : relocates (read_str rt e n).
Proof. unfold read_str. apply rl_bind; [apply rl_bytes|intros; apply rl_lift]. Qed.
Lemma rl_vstr rt e n : relocates (vstr rt e n).
Proof. unfold vstr. apply rl_bind; [|intros; apply rl_ret]. apply rl_str. Qed.
Lemma rl_vstr_full rt e : relocates (vstr_full rt e).
Proof. unfold vstr_full. apply rl_bind; [apply rl_full|intros]. apply rl_bind; [apply rl_lift|intros; apply rl_ret]. Qed.
Lemma rl_expect rt l p : relocates (expect_bytes rt l p).
Proof. apply rl_bind; [apply rl_bytes|]. intros x. destruct (bytes_eqb x l); [apply rl_ret|apply rl_fail]. Qed.
Lemma rl_aligned {A} (m : M A) : relocates m -> relocates (aligned m). Proof. intros H. apply rl_bind; [apply rl_align|intros; exact H]. Qed.
Lemma rl_some {A} (m : M A) : relocates m -> relocates (some m). Proof. intros H. apply rl_bind; [exact H|intros; apply rl_ret]. Qed.
Lemma rl_none {A} : relocates (@none A). Proof. apply rl_ret. Qed.
Lemma rl_repeat n m : relocates m -> relocates (repeat_n n m).
Proof. intros H. induction n as [|n IH]; cbn [repeat_n]; [apply rl_ret|]. apply rl_bind; [exact H|intros v]. apply rl_bind; [exact IH|intros l]. apply rl_ret. Qed.
Lemma rl_range n m : relocates m -> relocates (for_range n m). Proof. apply rl_repeat. Qed.
Lemma rl_enum_value v : relocates (enum_value v). Proof. destruct v; (apply rl_ret || apply rl_fail). Qed.
Lemma rl_needed {A} x (v : option A) : relocates (needed x v). Proof. destruct v; (apply rl_ret || apply rl_fail). Qed.
Lemma rl_stored n a : relocates (stored n a). Proof. unfold stored. destruct (lookup n a); (apply rl_ret || apply rl_fail || apply rl_lift). Qed.
#[global] Hint Resolve rl_align rl_bytes rl_bits rl_full rl_eof rl_u1 rl_u2be rl_u4be rl_u2le rl_u4le rl_s2be rl_flag rl_vint rl_vbits rl_vflag rl_venum rl_vbytes rl_vfull rl_str rl_vstr rl_vstr_full rl_expect rl_aligned rl_some rl_none rl_range rl_enum_value rl_needed rl_stored : reloc.

Lemma rl_flag_of x v : relocates (flag_of x v).
Proof. intros pre s _. unfold flag_of. destruct (getattr x v) as [[]|]; reflexivity. Qed.
#[global] Hint Resolve rl_flag_of : reloc.
Lemma rl_int_of x v : relocates (int_of x v).
Proof. intros pre s _. unfold int_of. destruct (getattr x v) as [[]|]; reflexivity. Qed.
Lemma rl_pdu_type v : relocates (MotTextMessageProtocol_custom_pdu_type v).
Proof. unfold MotTextMessageProtocol_custom_pdu_type. repeat first [apply rl_flag_of|apply rl_int_of|apply rl_ret|apply rl_fail|apply rl_bind; [|intros ?]|match goal with |- relocates (if ?c then _ else _) => destruct c end]. Qed.
#[global] Hint Resolve rl_int_of rl_pdu_type : reloc.

Lemma rl_p_DmrCsbk_NegativeAckResponseData  : relocates (p_DmrCsbk_NegativeAckResponseData ).
Proof. unfold p_DmrCsbk_NegativeAckResponseData. rl. Qed.
#[global] Hint Resolve rl_p_DmrCsbk_NegativeAckResponseData : reloc.
Lemma rl_p_DmrCsbk_ServiceOptions  : relocates (p_DmrCsbk_ServiceOptions ).
Proof. unfold p_DmrCsbk_ServiceOptions. rl. Qed.
#[global] Hint Resolve rl_p_DmrCsbk_ServiceOptions : reloc.
Lemma rl_p_DmrCsbk_UnitToUnitVoiceRequestData  : relocates (p_DmrCsbk_UnitToUnitVoiceRequestData ).
Proof. unfold p_DmrCsbk_UnitToUnitVoiceRequestData. rl. Qed.
#[global] Hint Resolve rl_p_DmrCsbk_UnitToUnitVoiceRequestData : reloc.
Lemma rl_p_DmrCsbk_PreambleData  : relocates (p_DmrCsbk_PreambleData ).
Proof. unfold p_DmrCsbk_PreambleData. rl. Qed.
#[global] Hint Resolve rl_p_DmrCsbk_PreambleData : reloc.
Lemma rl_p_DmrCsbk_ChannelTimingData  : relocates (p_DmrCsbk_ChannelTimingData ).
Proof. unfold p_DmrCsbk_ChannelTimingData. rl. Qed.
#[global] Hint Resolve rl_p_DmrCsbk_ChannelTimingData : reloc.
Lemma rl_p_DmrCsbk_BsOutboundActivationData  : relocates (p_DmrCsbk_BsOutboundActivationData ).
Proof. unfold p_DmrCsbk_BsOutboundActivationData. rl. Qed.
#[global] Hint Resolve rl_p_DmrCsbk_BsOutboundActivationData : reloc.
Lemma rl_p_DmrCsbk_UnitToUnitVoiceAnswerData  : relocates (p_DmrCsbk_UnitToUnitVoiceAnswerData ).
Proof. unfold p_DmrCsbk_UnitToUnitVoiceAnswerData. rl. Qed.
#[global] Hint Resolve rl_p_DmrCsbk_UnitToUnitVoiceAnswerData : reloc.
Lemma rl_p_DmrCsbk  : relocates (p_DmrCsbk ).
Proof. unfold p_DmrCsbk. rl. Qed.
#[global] Hint Resolve rl_p_DmrCsbk : reloc.
Lemma rl_p_DmrData_Rate1LastBlockUnconfirmed rt : relocates (p_DmrData_Rate1LastBlockUnconfirmed rt).
Proof. unfold p_DmrData_Rate1LastBlockUnconfirmed. rl. Qed.
#[global] Hint Resolve rl_p_DmrData_Rate1LastBlockUnconfirmed : reloc.
Lemma rl_p_DmrData_Rate12LastBlockConfirmed rt : relocates (p_DmrData_Rate12LastBlockConfirmed rt).
Proof. unfold p_DmrData_Rate12LastBlockConfirmed. rl. Qed.
#[global] Hint Resolve rl_p_DmrData_Rate12LastBlockConfirmed : reloc.
Lemma rl_p_DmrData_Rate12Confirmed rt : relocates (p_DmrData_Rate12Confirmed rt).
Proof. unfold p_DmrData_Rate12Confirmed. rl. Qed.
#[global] Hint Resolve rl_p_DmrData_Rate12Confirmed : reloc.
Lemma rl_p_DmrData_Rate34LastBlockUnconfirmed rt : relocates (p_DmrData_Rate34LastBlockUnconfirmed rt).
Proof. unfold p_DmrData_Rate34LastBlockUnconfirmed. rl. Qed.
#[global] Hint Resolve rl_p_DmrData_Rate34LastBlockUnconfirmed : reloc.
Lemma rl_p_DmrData_Rate1LastBlockConfirmed rt : relocates (p_DmrData_Rate1LastBlockConfirmed rt).
Proof. unfold p_DmrData_Rate1LastBlockConfirmed. rl. Qed.
#[global] Hint Resolve rl_p_DmrData_Rate1LastBlockConfirmed : reloc.
Lemma rl_p_DmrData_Rate1Unconfirmed rt : relocates (p_DmrData_Rate1Unconfirmed rt).
Proof. unfold p_DmrData_Rate1Unconfirmed. rl. Qed.
#[global] Hint Resolve rl_p_DmrData_Rate1Unconfirmed : reloc.
Lemma rl_p_DmrData_UdtLastBlock rt : relocates (p_DmrData_UdtLastBlock rt).
Proof. unfold p_DmrData_UdtLastBlock. rl. Qed.
#[global] Hint Resolve rl_p_DmrData_UdtLastBlock : reloc.
Lemma rl_p_DmrData_Rate34Confirmed rt : relocates (p_DmrData_Rate34Confirmed rt).
Proof. unfold p_DmrData_Rate34Confirmed. rl. Qed.
#[global] Hint Resolve rl_p_DmrData_Rate34Confirmed : reloc.
Lemma rl_p_DmrData_Rate34LastBlockConfirmed rt : relocates (p_DmrData_Rate34LastBlockConfirmed rt).
Proof. unfold p_DmrData_Rate34LastBlockConfirmed. rl. Qed.
#[global] Hint Resolve rl_p_DmrData_Rate34LastBlockConfirmed : reloc.
Lemma rl_p_DmrData_Rate34Unconfirmed rt : relocates (p_DmrData_Rate34Unconfirmed rt).
Proof. unfold p_DmrData_Rate34Unconfirmed. rl. Qed.
#[global] Hint Resolve rl_p_DmrData_Rate34Unconfirmed : reloc.
Lemma rl_p_DmrData_Rate12LastBlockUnconfirmed rt : relocates (p_DmrData_Rate12LastBlockUnconfirmed rt).
Proof. unfold p_DmrData_Rate12LastBlockUnconfirmed. rl. Qed.
#[global] Hint Resolve rl_p_DmrData_Rate12LastBlockUnconfirmed : reloc.
Lemma rl_p_DmrData_Rate1Confirmed rt : relocates (p_DmrData_Rate1Confirmed rt).
Proof. unfold p_DmrData_Rate1Confirmed. rl. Qed.
#[global] Hint Resolve rl_p_DmrData_Rate1Confirmed : reloc.
Lemma rl_p_DmrData_Rate12Unconfirmed rt : relocates (p_DmrData_Rate12Unconfirmed rt).
Proof. unfold p_DmrData_Rate12Unconfirmed. rl. Qed.
#[global] Hint Resolve rl_p_DmrData_Rate12Unconfirmed : reloc.
Lemma rl_p_DmrData  : relocates (p_DmrData ).
Proof. unfold p_DmrData. rl. Qed.
#[global] Hint Resolve rl_p_DmrData : reloc.
Lemma rl_p_DmrDataHeader_DataHeaderShortRaw rt : relocates (p_DmrDataHeader_DataHeaderShortRaw rt).
Proof. unfold p_DmrDataHeader_DataHeaderShortRaw. rl. Qed.
#[global] Hint Resolve rl_p_DmrDataHeader_DataHeaderShortRaw : reloc.
Lemma rl_p_DmrDataHeader_DataHeaderProprietary rt : relocates (p_DmrDataHeader_DataHeaderProprietary rt).
Proof. unfold p_DmrDataHeader_DataHeaderProprietary. rl. Qed.
#[global] Hint Resolve rl_p_DmrDataHeader_DataHeaderProprietary : reloc.
Lemma rl_p_DmrDataHeader_DataHeaderUndefined rt : relocates (p_DmrDataHeader_DataHeaderUndefined rt).
Proof. unfold p_DmrDataHeader_DataHeaderUndefined. rl. Qed.
#[global] Hint Resolve rl_p_DmrDataHeader_DataHeaderUndefined : reloc.
Lemma rl_p_DmrDataHeader_DataHeaderShortStatusPrecoded rt : relocates (p_DmrDataHeader_DataHeaderShortStatusPrecoded rt).
Proof. unfold p_DmrDataHeader_DataHeaderShortStatusPrecoded. rl. Qed.
#[global] Hint Resolve rl_p_DmrDataHeader_DataHeaderShortStatusPrecoded : reloc.
Lemma rl_p_DmrDataHeader_DataHeaderResponse rt : relocates (p_DmrDataHeader_DataHeaderResponse rt).
Proof. unfold p_DmrDataHeader_DataHeaderResponse. rl. Qed.
#[global] Hint Resolve rl_p_DmrDataHeader_DataHeaderResponse : reloc.
Lemma rl_p_DmrDataHeader_DataHeaderConfirmed rt : relocates (p_DmrDataHeader_DataHeaderConfirmed rt).
Proof. unfold p_DmrDataHeader_DataHeaderConfirmed. rl. Qed.
#[global] Hint Resolve rl_p_DmrDataHeader_DataHeaderConfirmed : reloc.
Lemma rl_p_DmrDataHeader_DataHeaderUnconfirmed rt : relocates (p_DmrDataHeader_DataHeaderUnconfirmed rt).
Proof. unfold p_DmrDataHeader_DataHeaderUnconfirmed. rl. Qed.
#[global] Hint Resolve rl_p_DmrDataHeader_DataHeaderUnconfirmed : reloc.
Lemma rl_p_DmrDataHeader_DataHeaderShortDefined rt : relocates (p_DmrDataHeader_DataHeaderShortDefined rt).
Proof. unfold p_DmrDataHeader_DataHeaderShortDefined. rl. Qed.
#[global] Hint Resolve rl_p_DmrDataHeader_DataHeaderShortDefined : reloc.
Lemma rl_p_DmrDataHeader_DataHeaderUdt rt : relocates (p_DmrDataHeader_DataHeaderUdt rt).
Proof. unfold p_DmrDataHeader_DataHeaderUdt. rl. Qed.
#[global] Hint Resolve rl_p_DmrDataHeader_DataHeaderUdt : reloc.
Lemma rl_p_DmrDataHeader  : relocates (p_DmrDataHeader ).
Proof. unfold p_DmrDataHeader. rl. Qed.
#[global] Hint Resolve rl_p_DmrDataHeader : reloc.
Lemma rl_p_DmrIpUdp_UdpIpv4CompressedHeader rt : relocates (p_DmrIpUdp_UdpIpv4CompressedHeader rt).
Proof. unfold p_DmrIpUdp_UdpIpv4CompressedHeader. rl. Qed.
#[global] Hint Resolve rl_p_DmrIpUdp_UdpIpv4CompressedHeader : reloc.
Lemma rl_p_DmrIpUdp  : relocates (p_DmrIpUdp ).
Proof. unfold p_DmrIpUdp. rl. Qed.
#[global] Hint Resolve rl_p_DmrIpUdp : reloc.
Lemma rl_p_FullLinkControl_GpsInfoLcPdu  : relocates (p_FullLinkControl_GpsInfoLcPdu ).
Proof. unfold p_FullLinkControl_GpsInfoLcPdu. rl. Qed.
#[global] Hint Resolve rl_p_FullLinkControl_GpsInfoLcPdu : reloc.
Lemma rl_p_FullLinkControl_GroupVoiceChannelUser  : relocates (p_FullLinkControl_GroupVoiceChannelUser ).
Proof. unfold p_FullLinkControl_GroupVoiceChannelUser. rl. Qed.
#[global] Hint Resolve rl_p_FullLinkControl_GroupVoiceChannelUser : reloc.
Lemma rl_p_FullLinkControl_UnitToUnitVoiceChannelUser  : relocates (p_FullLinkControl_UnitToUnitVoiceChannelUser ).
Proof. unfold p_FullLinkControl_UnitToUnitVoiceChannelUser. rl. Qed.
#[global] Hint Resolve rl_p_FullLinkControl_UnitToUnitVoiceChannelUser : reloc.
Lemma rl_p_FullLinkControl_TalkerAliasHeader  : relocates (p_FullLinkControl_TalkerAliasHeader ).
Proof. unfold p_FullLinkControl_TalkerAliasHeader. rl. Qed.
#[global] Hint Resolve rl_p_FullLinkControl_TalkerAliasHeader : reloc.
Lemma rl_p_FullLinkControl_TalkerAliasContinuation  : relocates (p_FullLinkControl_TalkerAliasContinuation ).
Proof. unfold p_FullLinkControl_TalkerAliasContinuation. rl. Qed.
#[global] Hint Resolve rl_p_FullLinkControl_TalkerAliasContinuation : reloc.
Lemma rl_p_Homebrew2015_TypeMasterPing rt : relocates (p_Homebrew2015_TypeMasterPing rt).
Proof. unfold p_Homebrew2015_TypeMasterPing. rl. Qed.
#[global] Hint Resolve rl_p_Homebrew2015_TypeMasterPing : reloc.
Lemma rl_p_Homebrew2015_TypeRepeaterPong rt : relocates (p_Homebrew2015_TypeRepeaterPong rt).
Proof. unfold p_Homebrew2015_TypeRepeaterPong. rl. Qed.
#[global] Hint Resolve rl_p_Homebrew2015_TypeRepeaterPong : reloc.
Lemma rl_p_Homebrew2015_TypeRepeaterLoginResponse rt : relocates (p_Homebrew2015_TypeRepeaterLoginResponse rt).
Proof. unfold p_Homebrew2015_TypeRepeaterLoginResponse. rl. Qed.
#[global] Hint Resolve rl_p_Homebrew2015_TypeRepeaterLoginResponse : reloc.
Lemma rl_p_Homebrew2015_TypeRepeaterLoginRequest rt : relocates (p_Homebrew2015_TypeRepeaterLoginRequest rt).
Proof. unfold p_Homebrew2015_TypeRepeaterLoginRequest. rl. Qed.
#[global] Hint Resolve rl_p_Homebrew2015_TypeRepeaterLoginRequest : reloc.
Lemma rl_p_Homebrew2015_TypeMasterNotAccept rt : relocates (p_Homebrew2015_TypeMasterNotAccept rt).
Proof. unfold p_Homebrew2015_TypeMasterNotAccept. rl. Qed.
#[global] Hint Resolve rl_p_Homebrew2015_TypeMasterNotAccept : reloc.
Lemma rl_p_Homebrew2015_TypeMasterRepeaterAck rt : relocates (p_Homebrew2015_TypeMasterRepeaterAck rt).
Proof. unfold p_Homebrew2015_TypeMasterRepeaterAck. rl. Qed.
#[global] Hint Resolve rl_p_Homebrew2015_TypeMasterRepeaterAck : reloc.
Lemma rl_p_Homebrew2015_TypeMasterClosing rt : relocates (p_Homebrew2015_TypeMasterClosing rt).
Proof. unfold p_Homebrew2015_TypeMasterClosing. rl. Qed.
#[global] Hint Resolve rl_p_Homebrew2015_TypeMasterClosing : reloc.
Lemma rl_p_Homebrew2015_TypeDmrData rt : relocates (p_Homebrew2015_TypeDmrData rt).
Proof. unfold p_Homebrew2015_TypeDmrData. rl. Qed.
#[global] Hint Resolve rl_p_Homebrew2015_TypeDmrData : reloc.
Lemma rl_p_Homebrew2015_TypeRepeaterOptions rt : relocates (p_Homebrew2015_TypeRepeaterOptions rt).
Proof. unfold p_Homebrew2015_TypeRepeaterOptions. rl. Qed.
#[global] Hint Resolve rl_p_Homebrew2015_TypeRepeaterOptions : reloc.
Lemma rl_p_Homebrew2015_TypeRepeaterClosing rt : relocates (p_Homebrew2015_TypeRepeaterClosing rt).
Proof. unfold p_Homebrew2015_TypeRepeaterClosing. rl. Qed.
#[global] Hint Resolve rl_p_Homebrew2015_TypeRepeaterClosing : reloc.
Lemma rl_p_Homebrew2015_TypeRepeaterConfiguration rt : relocates (p_Homebrew2015_TypeRepeaterConfiguration rt).
Proof. unfold p_Homebrew2015_TypeRepeaterConfiguration. rl. Qed.
#[global] Hint Resolve rl_p_Homebrew2015_TypeRepeaterConfiguration : reloc.
Lemma rl_p_Homebrew2015_TypeRepeaterConfigurationOrClosing rt x1 : relocates (p_Homebrew2015_TypeRepeaterConfigurationOrClosing rt x1).
Proof. unfold p_Homebrew2015_TypeRepeaterConfigurationOrClosing. rl. Qed.
#[global] Hint Resolve rl_p_Homebrew2015_TypeRepeaterConfigurationOrClosing : reloc.
Lemma rl_p_Mmdvm2020_TypeMasterPong rt : relocates (p_Mmdvm2020_TypeMasterPong rt).
Proof. unfold p_Mmdvm2020_TypeMasterPong. rl. Qed.
#[global] Hint Resolve rl_p_Mmdvm2020_TypeMasterPong : reloc.
Lemma rl_p_Mmdvm2020_TypeRadioPosition  : relocates (p_Mmdvm2020_TypeRadioPosition ).
Proof. unfold p_Mmdvm2020_TypeRadioPosition. rl. Qed.
#[global] Hint Resolve rl_p_Mmdvm2020_TypeRadioPosition : reloc.
Lemma rl_p_Mmdvm2020_TypeTalkerAlias rt : relocates (p_Mmdvm2020_TypeTalkerAlias rt).
Proof. unfold p_Mmdvm2020_TypeTalkerAlias. rl. Qed.
#[global] Hint Resolve rl_p_Mmdvm2020_TypeTalkerAlias : reloc.
Lemma rl_p_Mmdvm2020_TypeRepeaterLoginResponse rt : relocates (p_Mmdvm2020_TypeRepeaterLoginResponse rt).
Proof. unfold p_Mmdvm2020_TypeRepeaterLoginResponse. rl. Qed.
#[global] Hint Resolve rl_p_Mmdvm2020_TypeRepeaterLoginResponse : reloc.
Lemma rl_p_Mmdvm2020_TypeRepeaterLoginRequest rt : relocates (p_Mmdvm2020_TypeRepeaterLoginRequest rt).
Proof. unfold p_Mmdvm2020_TypeRepeaterLoginRequest. rl. Qed.
#[global] Hint Resolve rl_p_Mmdvm2020_TypeRepeaterLoginRequest : reloc.
Lemma rl_p_Mmdvm2020_TypeMasterNotAccept rt : relocates (p_Mmdvm2020_TypeMasterNotAccept rt).
Proof. unfold p_Mmdvm2020_TypeMasterNotAccept. rl. Qed.
#[global] Hint Resolve rl_p_Mmdvm2020_TypeMasterNotAccept : reloc.
Lemma rl_p_Mmdvm2020_TypeUnknown rt : relocates (p_Mmdvm2020_TypeUnknown rt).
Proof. unfold p_Mmdvm2020_TypeUnknown. rl. Qed.
#[global] Hint Resolve rl_p_Mmdvm2020_TypeUnknown : reloc.
Lemma rl_p_Mmdvm2020_TypeMasterRepeaterAck rt : relocates (p_Mmdvm2020_TypeMasterRepeaterAck rt).
Proof. unfold p_Mmdvm2020_TypeMasterRepeaterAck. rl. Qed.
#[global] Hint Resolve rl_p_Mmdvm2020_TypeMasterRepeaterAck : reloc.
Lemma rl_p_Mmdvm2020_TypeMasterClosing rt : relocates (p_Mmdvm2020_TypeMasterClosing rt).
Proof. unfold p_Mmdvm2020_TypeMasterClosing. rl. Qed.
#[global] Hint Resolve rl_p_Mmdvm2020_TypeMasterClosing : reloc.
Lemma rl_p_Mmdvm2020_TypeDmrData rt : relocates (p_Mmdvm2020_TypeDmrData rt).
Proof. unfold p_Mmdvm2020_TypeDmrData. rl. Qed.
#[global] Hint Resolve rl_p_Mmdvm2020_TypeDmrData : reloc.
Lemma rl_p_Mmdvm2020_TypeRepeaterBeacon  : relocates (p_Mmdvm2020_TypeRepeaterBeacon ).
Proof. unfold p_Mmdvm2020_TypeRepeaterBeacon. rl. Qed.
#[global] Hint Resolve rl_p_Mmdvm2020_TypeRepeaterBeacon : reloc.
Lemma rl_p_Mmdvm2020_TypeRepeaterOptions rt : relocates (p_Mmdvm2020_TypeRepeaterOptions rt).
Proof. unfold p_Mmdvm2020_TypeRepeaterOptions. rl. Qed.
#[global] Hint Resolve rl_p_Mmdvm2020_TypeRepeaterOptions : reloc.
Lemma rl_p_Mmdvm2020_TypeRepeaterClosing rt : relocates (p_Mmdvm2020_TypeRepeaterClosing rt).
Proof. unfold p_Mmdvm2020_TypeRepeaterClosing. rl. Qed.
#[global] Hint Resolve rl_p_Mmdvm2020_TypeRepeaterClosing : reloc.
Lemma rl_p_Mmdvm2020_TypeRepeaterConfiguration rt : relocates (p_Mmdvm2020_TypeRepeaterConfiguration rt).
Proof. unfold p_Mmdvm2020_TypeRepeaterConfiguration. rl. Qed.
#[global] Hint Resolve rl_p_Mmdvm2020_TypeRepeaterConfiguration : reloc.
Lemma rl_p_Mmdvm2020_TypeRepeaterPing rt : relocates (p_Mmdvm2020_TypeRepeaterPing rt).
Proof. unfold p_Mmdvm2020_TypeRepeaterPing. rl. Qed.
#[global] Hint Resolve rl_p_Mmdvm2020_TypeRepeaterPing : reloc.
Lemma rl_p_Mmdvm2020_TypeRepeaterConfigurationOrClosing rt x1 : relocates (p_Mmdvm2020_TypeRepeaterConfigurationOrClosing rt x1).
Proof. unfold p_Mmdvm2020_TypeRepeaterConfigurationOrClosing. rl. Qed.
#[global] Hint Resolve rl_p_Mmdvm2020_TypeRepeaterConfigurationOrClosing : reloc.
Lemma rl_p_RadioIp rt : relocates (p_RadioIp rt).
Proof. unfold p_RadioIp. rl. Qed.
#[global] Hint Resolve rl_p_RadioIp : reloc.
Lemma rl_p_RadioId rt : relocates (p_RadioId rt).
Proof. unfold p_RadioId. rl. Qed.
#[global] Hint Resolve rl_p_RadioId : reloc.
Lemma rl_p_Datetimestring rt : relocates (p_Datetimestring rt).
Proof. unfold p_Datetimestring. rl. Qed.
#[global] Hint Resolve rl_p_Datetimestring : reloc.
Lemma rl_p_Intervalstring rt : relocates (p_Intervalstring rt).
Proof. unfold p_Intervalstring. rl. Qed.
#[global] Hint Resolve rl_p_Intervalstring : reloc.
Lemma rl_p_Gpsdata rt : relocates (p_Gpsdata rt).
Proof. unfold p_Gpsdata. rl. Qed.
#[global] Hint Resolve rl_p_Gpsdata : reloc.
Lemma rl_p_RadioRegistrationService rt : relocates (p_RadioRegistrationService rt).
Proof. unfold p_RadioRegistrationService. rl. Qed.
#[global] Hint Resolve rl_p_RadioRegistrationService : reloc.
Lemma rl_p_DataDeliveryStates rt : relocates (p_DataDeliveryStates rt).
Proof. unfold p_DataDeliveryStates. rl. Qed.
#[global] Hint Resolve rl_p_DataDeliveryStates : reloc.
Lemma rl_p_DataTransmitProtocol_LastDataSlice rt : relocates (p_DataTransmitProtocol_LastDataSlice rt).
Proof. unfold p_DataTransmitProtocol_LastDataSlice. rl. Qed.
#[global] Hint Resolve rl_p_DataTransmitProtocol_LastDataSlice : reloc.
Lemma rl_p_DataTransmitProtocol_DtpRequest rt x1 : relocates (p_DataTransmitProtocol_DtpRequest rt x1).
Proof. unfold p_DataTransmitProtocol_DtpRequest. rl. Qed.
#[global] Hint Resolve rl_p_DataTransmitProtocol_DtpRequest : reloc.
Lemma rl_p_DataTransmitProtocol_DataSliceAnswer rt : relocates (p_DataTransmitProtocol_DataSliceAnswer rt).
Proof. unfold p_DataTransmitProtocol_DataSliceAnswer. rl. Qed.
#[global] Hint Resolve rl_p_DataTransmitProtocol_DataSliceAnswer : reloc.
Lemma rl_p_DataTransmitProtocol_DataSliceTransmit rt x1 : relocates (p_DataTransmitProtocol_DataSliceTransmit rt x1).
Proof. unfold p_DataTransmitProtocol_DataSliceTransmit. rl. Qed.
#[global] Hint Resolve rl_p_DataTransmitProtocol_DataSliceTransmit : reloc.
Lemma rl_p_DataTransmitProtocol_LastDataSliceAnswer rt : relocates (p_DataTransmitProtocol_LastDataSliceAnswer rt).
Proof. unfold p_DataTransmitProtocol_LastDataSliceAnswer. rl. Qed.
#[global] Hint Resolve rl_p_DataTransmitProtocol_LastDataSliceAnswer : reloc.
Lemma rl_p_DataTransmitProtocol_DtpAnswer rt : relocates (p_DataTransmitProtocol_DtpAnswer rt).
Proof. unfold p_DataTransmitProtocol_DtpAnswer. rl. Qed.
#[global] Hint Resolve rl_p_DataTransmitProtocol_DtpAnswer : reloc.
Lemma rl_p_DataTransmitProtocol rt : relocates (p_DataTransmitProtocol rt).
Proof. unfold p_DataTransmitProtocol. rl. Qed.
#[global] Hint Resolve rl_p_DataTransmitProtocol : reloc.
Lemma rl_p_TextMessageProtocol rt : relocates (p_TextMessageProtocol rt).
Proof. unfold p_TextMessageProtocol, TextMessageProtocol_option_sum_len. rl. Qed.
#[global] Hint Resolve rl_p_TextMessageProtocol : reloc.
Lemma rl_p_LocationProtocol_TriggeredReportStopAnswer rt : relocates (p_LocationProtocol_TriggeredReportStopAnswer rt).
Proof. unfold p_LocationProtocol_TriggeredReportStopAnswer. rl. Qed.
#[global] Hint Resolve rl_p_LocationProtocol_TriggeredReportStopAnswer : reloc.
Lemma rl_p_LocationProtocol_ConditionReportRequest rt : relocates (p_LocationProtocol_ConditionReportRequest rt).
Proof. unfold p_LocationProtocol_ConditionReportRequest. rl. Qed.
#[global] Hint Resolve rl_p_LocationProtocol_ConditionReportRequest : reloc.
Lemma rl_p_LocationProtocol_QuickGpsPayload rt : relocates (p_LocationProtocol_QuickGpsPayload rt).
Proof. unfold p_LocationProtocol_QuickGpsPayload. rl. Qed.
#[global] Hint Resolve rl_p_LocationProtocol_QuickGpsPayload : reloc.
Lemma rl_p_LocationProtocol_ConditionQuickGpsRequest rt : relocates (p_LocationProtocol_ConditionQuickGpsRequest rt).
Proof. unfold p_LocationProtocol_ConditionQuickGpsRequest. rl. Qed.
#[global] Hint Resolve rl_p_LocationProtocol_ConditionQuickGpsRequest : reloc.
Lemma rl_p_LocationProtocol_ConditionReport rt : relocates (p_LocationProtocol_ConditionReport rt).
Proof. unfold p_LocationProtocol_ConditionReport. rl. Qed.
#[global] Hint Resolve rl_p_LocationProtocol_ConditionReport : reloc.
Lemma rl_p_LocationProtocol_EmergencyReport rt : relocates (p_LocationProtocol_EmergencyReport rt).
Proof. unfold p_LocationProtocol_EmergencyReport. rl. Qed.
#[global] Hint Resolve rl_p_LocationProtocol_EmergencyReport : reloc.
Lemma rl_p_LocationProtocol_TriggeredReportAnswer rt : relocates (p_LocationProtocol_TriggeredReportAnswer rt).
Proof. unfold p_LocationProtocol_TriggeredReportAnswer. rl. Qed.
#[global] Hint Resolve rl_p_LocationProtocol_TriggeredReportAnswer : reloc.
Lemma rl_p_LocationProtocol_StandardAnswerWithRssi rt : relocates (p_LocationProtocol_StandardAnswerWithRssi rt).
Proof. unfold p_LocationProtocol_StandardAnswerWithRssi. rl. Qed.
#[global] Hint Resolve rl_p_LocationProtocol_StandardAnswerWithRssi : reloc.
Lemma rl_p_LocationProtocol_StandardRequest rt : relocates (p_LocationProtocol_StandardRequest rt).
Proof. unfold p_LocationProtocol_StandardRequest. rl. Qed.
#[global] Hint Resolve rl_p_LocationProtocol_StandardRequest : reloc.
Lemma rl_p_LocationProtocol_TriggeredReportRequest rt : relocates (p_LocationProtocol_TriggeredReportRequest rt).
Proof. unfold p_LocationProtocol_TriggeredReportRequest. rl. Qed.
#[global] Hint Resolve rl_p_LocationProtocol_TriggeredReportRequest : reloc.
Lemma rl_p_LocationProtocol_StandardAnswer rt : relocates (p_LocationProtocol_StandardAnswer rt).
Proof. unfold p_LocationProtocol_StandardAnswer. rl. Qed.
#[global] Hint Resolve rl_p_LocationProtocol_StandardAnswer : reloc.
Lemma rl_p_LocationProtocol_ConditionReportAnswer rt : relocates (p_LocationProtocol_ConditionReportAnswer rt).
Proof. unfold p_LocationProtocol_ConditionReportAnswer. rl. Qed.
#[global] Hint Resolve rl_p_LocationProtocol_ConditionReportAnswer : reloc.
Lemma rl_p_LocationProtocol_EmergencyReportStopRequest rt : relocates (p_LocationProtocol_EmergencyReportStopRequest rt).
Proof. unfold p_LocationProtocol_EmergencyReportStopRequest. rl. Qed.
#[global] Hint Resolve rl_p_LocationProtocol_EmergencyReportStopRequest : reloc.
Lemma rl_p_LocationProtocol_ConditionQuickGpsAnswer rt : relocates (p_LocationProtocol_ConditionQuickGpsAnswer rt).
Proof. unfold p_LocationProtocol_ConditionQuickGpsAnswer. rl. Qed.
#[global] Hint Resolve rl_p_LocationProtocol_ConditionQuickGpsAnswer : reloc.
Lemma rl_p_LocationProtocol_TriggeredReport rt : relocates (p_LocationProtocol_TriggeredReport rt).
Proof. unfold p_LocationProtocol_TriggeredReport. rl. Qed.
#[global] Hint Resolve rl_p_LocationProtocol_TriggeredReport : reloc.
Lemma rl_p_LocationProtocol_ConditionReportWithRssi rt : relocates (p_LocationProtocol_ConditionReportWithRssi rt).
Proof. unfold p_LocationProtocol_ConditionReportWithRssi. rl. Qed.
#[global] Hint Resolve rl_p_LocationProtocol_ConditionReportWithRssi : reloc.
Lemma rl_p_LocationProtocol_EmergencyReportStopAnswer rt : relocates (p_LocationProtocol_EmergencyReportStopAnswer rt).
Proof. unfold p_LocationProtocol_EmergencyReportStopAnswer. rl. Qed.
#[global] Hint Resolve rl_p_LocationProtocol_EmergencyReportStopAnswer : reloc.
Lemma rl_p_LocationProtocol_TriggeredReportStopRequest rt : relocates (p_LocationProtocol_TriggeredReportStopRequest rt).
Proof. unfold p_LocationProtocol_TriggeredReportStopRequest. rl. Qed.
#[global] Hint Resolve rl_p_LocationProtocol_TriggeredReportStopRequest : reloc.
Lemma rl_p_LocationProtocol rt : relocates (p_LocationProtocol rt).
Proof. unfold p_LocationProtocol. rl. Qed.
#[global] Hint Resolve rl_p_LocationProtocol : reloc.
Lemma rl_p_TelemetryProtocol_StandardStatusReport rt : relocates (p_TelemetryProtocol_StandardStatusReport rt).
Proof. unfold p_TelemetryProtocol_StandardStatusReport. rl. Qed.
#[global] Hint Resolve rl_p_TelemetryProtocol_StandardStatusReport : reloc.
Lemma rl_p_TelemetryProtocol_VioExtendedStatus rt : relocates (p_TelemetryProtocol_VioExtendedStatus rt).
Proof. unfold p_TelemetryProtocol_VioExtendedStatus. rl. Qed.
#[global] Hint Resolve rl_p_TelemetryProtocol_VioExtendedStatus : reloc.
Lemma rl_p_TelemetryProtocol_RemoteControlAnswer rt : relocates (p_TelemetryProtocol_RemoteControlAnswer rt).
Proof. unfold p_TelemetryProtocol_RemoteControlAnswer. rl. Qed.
#[global] Hint Resolve rl_p_TelemetryProtocol_RemoteControlAnswer : reloc.
Lemma rl_p_TelemetryProtocol_RemoteControlRequest rt : relocates (p_TelemetryProtocol_RemoteControlRequest rt).
Proof. unfold p_TelemetryProtocol_RemoteControlRequest. rl. Qed.
#[global] Hint Resolve rl_p_TelemetryProtocol_RemoteControlRequest : reloc.
Lemma rl_p_TelemetryProtocol_ExtendedStatusReport rt : relocates (p_TelemetryProtocol_ExtendedStatusReport rt).
Proof. unfold p_TelemetryProtocol_ExtendedStatusReport. rl. Qed.
#[global] Hint Resolve rl_p_TelemetryProtocol_ExtendedStatusReport : reloc.
Lemma rl_p_TelemetryProtocol_StandardStatusRequest rt : relocates (p_TelemetryProtocol_StandardStatusRequest rt).
Proof. unfold p_TelemetryProtocol_StandardStatusRequest. rl. Qed.
#[global] Hint Resolve rl_p_TelemetryProtocol_StandardStatusRequest : reloc.
Lemma rl_p_RadioControlProtocol_BroadcastStatusConfigurationReply rt : relocates (p_RadioControlProtocol_BroadcastStatusConfigurationReply rt).
Proof. unfold p_RadioControlProtocol_BroadcastStatusConfigurationReply. rl. Qed.
#[global] Hint Resolve rl_p_RadioControlProtocol_BroadcastStatusConfigurationReply : reloc.
Lemma rl_p_RadioControlProtocol_BroadcastConfiguration rt : relocates (p_RadioControlProtocol_BroadcastConfiguration rt).
Proof. unfold p_RadioControlProtocol_BroadcastConfiguration. rl. Qed.
#[global] Hint Resolve rl_p_RadioControlProtocol_BroadcastConfiguration : reloc.
Lemma rl_p_RadioControlProtocol_BroadcastStatusConfigurationRequest rt : relocates (p_RadioControlProtocol_BroadcastStatusConfigurationRequest rt).
Proof. unfold p_RadioControlProtocol_BroadcastStatusConfigurationRequest. rl. Qed.
#[global] Hint Resolve rl_p_RadioControlProtocol_BroadcastStatusConfigurationRequest : reloc.
Lemma rl_p_RadioControlProtocol_RadioIdentificationReply rt x1 : relocates (p_RadioControlProtocol_RadioIdentificationReply rt x1).
Proof. unfold p_RadioControlProtocol_RadioIdentificationReply. rl. Qed.
#[global] Hint Resolve rl_p_RadioControlProtocol_RadioIdentificationReply : reloc.
Lemma rl_p_RadioControlProtocol_GenericData rt x1 : relocates (p_RadioControlProtocol_GenericData rt x1).
Proof. unfold p_RadioControlProtocol_GenericData. rl. Qed.
#[global] Hint Resolve rl_p_RadioControlProtocol_GenericData : reloc.
Lemma rl_p_RadioControlProtocol_CallRequest rt : relocates (p_RadioControlProtocol_CallRequest rt).
Proof. unfold p_RadioControlProtocol_CallRequest. rl. Qed.
#[global] Hint Resolve rl_p_RadioControlProtocol_CallRequest : reloc.
Lemma rl_p_RadioControlProtocol_RemoveRadioReply rt : relocates (p_RadioControlProtocol_RemoveRadioReply rt).
Proof. unfold p_RadioControlProtocol_RemoveRadioReply. rl. Qed.
#[global] Hint Resolve rl_p_RadioControlProtocol_RemoveRadioReply : reloc.
Lemma rl_p_RadioControlProtocol_RemoveRadioRequest  : relocates (p_RadioControlProtocol_RemoveRadioRequest ).
Proof. unfold p_RadioControlProtocol_RemoveRadioRequest. rl. Qed.
#[global] Hint Resolve rl_p_RadioControlProtocol_RemoveRadioRequest : reloc.
Lemma rl_p_RadioControlProtocol_CallReply rt : relocates (p_RadioControlProtocol_CallReply rt).
Proof. unfold p_RadioControlProtocol_CallReply. rl. Qed.
#[global] Hint Resolve rl_p_RadioControlProtocol_CallReply : reloc.
Lemma rl_p_RadioControlProtocol rt : relocates (p_RadioControlProtocol rt).
Proof. unfold p_RadioControlProtocol. rl. Qed.
#[global] Hint Resolve rl_p_RadioControlProtocol : reloc.
Lemma rl_p_HyteraDmrApplicationProtocol_UndefinedProtocol rt : relocates (p_HyteraDmrApplicationProtocol_UndefinedProtocol rt).
Proof. unfold p_HyteraDmrApplicationProtocol_UndefinedProtocol. rl. Qed.
#[global] Hint Resolve rl_p_HyteraDmrApplicationProtocol_UndefinedProtocol : reloc.
Lemma rl_p_HyteraSimpleTransportReliabilityProtocol_Option rt : relocates (p_HyteraSimpleTransportReliabilityProtocol_Option rt).
Proof. unfold p_HyteraSimpleTransportReliabilityProtocol_Option. rl. Qed.
#[global] Hint Resolve rl_p_HyteraSimpleTransportReliabilityProtocol_Option : reloc.
Lemma rl_hstrp_options rt n : relocates (hstrp_options rt n).
Proof. intros. induction n as [|n IH]; cbn [hstrp_options]; [apply rl_fail|]. rl. Qed.
#[global] Hint Resolve rl_hstrp_options : reloc.
Lemma rl_p_IpSiteConnectProtocol rt : relocates (p_IpSiteConnectProtocol rt).
Proof. unfold p_IpSiteConnectProtocol. rl. Qed.
#[global] Hint Resolve rl_p_IpSiteConnectProtocol : reloc.
Lemma rl_p_IpSiteConnectHeartbeat_Keepalive rt : relocates (p_IpSiteConnectHeartbeat_Keepalive rt).
Proof. unfold p_IpSiteConnectHeartbeat_Keepalive. rl. Qed.
#[global] Hint Resolve rl_p_IpSiteConnectHeartbeat_Keepalive : reloc.
Lemma rl_p_IpSiteConnectHeartbeat_PingPong rt : relocates (p_IpSiteConnectHeartbeat_PingPong rt).
Proof. unfold p_IpSiteConnectHeartbeat_PingPong. rl. Qed.
#[global] Hint Resolve rl_p_IpSiteConnectHeartbeat_PingPong : reloc.
Lemma rl_p_IpSiteConnectHeartbeat_Unknown rt : relocates (p_IpSiteConnectHeartbeat_Unknown rt).
Proof. unfold p_IpSiteConnectHeartbeat_Unknown. rl. Qed.
#[global] Hint Resolve rl_p_IpSiteConnectHeartbeat_Unknown : reloc.
Lemma rl_p_RealTimeTransportProtocol_FixedHeader rt : relocates (p_RealTimeTransportProtocol_FixedHeader rt).
Proof. unfold p_RealTimeTransportProtocol_FixedHeader. rl. Qed.
#[global] Hint Resolve rl_p_RealTimeTransportProtocol_FixedHeader : reloc.
Lemma rl_p_RealTimeTransportProtocol_HeaderExtension rt : relocates (p_RealTimeTransportProtocol_HeaderExtension rt).
Proof. unfold p_RealTimeTransportProtocol_HeaderExtension. rl. Qed.
#[global] Hint Resolve rl_p_RealTimeTransportProtocol_HeaderExtension : reloc.
Lemma rl_p_AutomaticRegistrationService_DeviceRegistrationMessageHeader  : relocates (p_AutomaticRegistrationService_DeviceRegistrationMessageHeader ).
Proof. unfold p_AutomaticRegistrationService_DeviceRegistrationMessageHeader. rl. Qed.
#[global] Hint Resolve rl_p_AutomaticRegistrationService_DeviceRegistrationMessageHeader : reloc.
Lemma rl_p_AutomaticRegistrationService_MessageHeaderBits  : relocates (p_AutomaticRegistrationService_MessageHeaderBits ).
Proof. unfold p_AutomaticRegistrationService_MessageHeaderBits. rl. Qed.
#[global] Hint Resolve rl_p_AutomaticRegistrationService_MessageHeaderBits : reloc.
Lemma rl_p_AutomaticRegistrationService_DeviceDeregistrationMessage  : relocates (p_AutomaticRegistrationService_DeviceDeregistrationMessage ).
Proof. unfold p_AutomaticRegistrationService_DeviceDeregistrationMessage. rl. Qed.
#[global] Hint Resolve rl_p_AutomaticRegistrationService_DeviceDeregistrationMessage : reloc.
Lemma rl_p_AutomaticRegistrationService_DeviceRegistrationAcknowledgementFailureReason  : relocates (p_AutomaticRegistrationService_DeviceRegistrationAcknowledgementFailureReason ).
Proof. unfold p_AutomaticRegistrationService_DeviceRegistrationAcknowledgementFailureReason. rl. Qed.
#[global] Hint Resolve rl_p_AutomaticRegistrationService_DeviceRegistrationAcknowledgementFailureReason : reloc.
Lemma rl_p_AutomaticRegistrationService_DeviceRegistrationAcknowledgementHeader  : relocates (p_AutomaticRegistrationService_DeviceRegistrationAcknowledgementHeader ).
Proof. unfold p_AutomaticRegistrationService_DeviceRegistrationAcknowledgementHeader. rl. Qed.
#[global] Hint Resolve rl_p_AutomaticRegistrationService_DeviceRegistrationAcknowledgementHeader : reloc.
Lemma rl_p_AutomaticRegistrationService_AcknowledgementMessage x0 : relocates (p_AutomaticRegistrationService_AcknowledgementMessage x0).
Proof. unfold p_AutomaticRegistrationService_AcknowledgementMessage. rl. Qed.
#[global] Hint Resolve rl_p_AutomaticRegistrationService_AcknowledgementMessage : reloc.
Lemma rl_p_AutomaticRegistrationService_DeviceRegistrationMessage rt x1 : relocates (p_AutomaticRegistrationService_DeviceRegistrationMessage rt x1).
Proof. unfold p_AutomaticRegistrationService_DeviceRegistrationMessage. rl. Qed.
#[global] Hint Resolve rl_p_AutomaticRegistrationService_DeviceRegistrationMessage : reloc.
Lemma rl_p_AutomaticRegistrationService_ArsQueryMessage  : relocates (p_AutomaticRegistrationService_ArsQueryMessage ).
Proof. unfold p_AutomaticRegistrationService_ArsQueryMessage. rl. Qed.
#[global] Hint Resolve rl_p_AutomaticRegistrationService_ArsQueryMessage : reloc.
Lemma rl_p_AutomaticRegistrationService rt : relocates (p_AutomaticRegistrationService rt).
Proof. unfold p_AutomaticRegistrationService. rl. Qed.
#[global] Hint Resolve rl_p_AutomaticRegistrationService : reloc.
Lemma rl_p_MotTextMessageProtocol_TextMessageHeaderSequenceAndEncoding  : relocates (p_MotTextMessageProtocol_TextMessageHeaderSequenceAndEncoding ).
Proof. unfold p_MotTextMessageProtocol_TextMessageHeaderSequenceAndEncoding. rl. Qed.
#[global] Hint Resolve rl_p_MotTextMessageProtocol_TextMessageHeaderSequenceAndEncoding : reloc.
Lemma rl_p_MotTextMessageProtocol_TextMessage rt x1 : relocates (p_MotTextMessageProtocol_TextMessage rt x1).
Proof. unfold p_MotTextMessageProtocol_TextMessage. rl. Qed.
#[global] Hint Resolve rl_p_MotTextMessageProtocol_TextMessage : reloc.
Lemma rl_p_MotTextMessageProtocol_TmsServiceAvailabilityHeader  : relocates (p_MotTextMessageProtocol_TmsServiceAvailabilityHeader ).
Proof. unfold p_MotTextMessageProtocol_TmsServiceAvailabilityHeader. rl. Qed.
#[global] Hint Resolve rl_p_MotTextMessageProtocol_TmsServiceAvailabilityHeader : reloc.
Lemma rl_p_MotTextMessageProtocol_TmsServiceAvailability x0 : relocates (p_MotTextMessageProtocol_TmsServiceAvailability x0).
Proof. unfold p_MotTextMessageProtocol_TmsServiceAvailability. rl. Qed.
#[global] Hint Resolve rl_p_MotTextMessageProtocol_TmsServiceAvailability : reloc.
Lemma rl_p_MotTextMessageProtocol_MessageHeaderBits  : relocates (p_MotTextMessageProtocol_MessageHeaderBits ).
Proof. unfold p_MotTextMessageProtocol_MessageHeaderBits. rl. Qed.
#[global] Hint Resolve rl_p_MotTextMessageProtocol_MessageHeaderBits : reloc.
Lemma rl_p_MotTextMessageProtocol_TmsAcknowledgementHeaderSequenceNumber  : relocates (p_MotTextMessageProtocol_TmsAcknowledgementHeaderSequenceNumber ).
Proof. unfold p_MotTextMessageProtocol_TmsAcknowledgementHeaderSequenceNumber. rl. Qed.
#[global] Hint Resolve rl_p_MotTextMessageProtocol_TmsAcknowledgementHeaderSequenceNumber : reloc.
Lemma rl_p_MotTextMessageProtocol_TmsAcknowledgement x0 : relocates (p_MotTextMessageProtocol_TmsAcknowledgement x0).
Proof. unfold p_MotTextMessageProtocol_TmsAcknowledgement. rl. Qed.
#[global] Hint Resolve rl_p_MotTextMessageProtocol_TmsAcknowledgement : reloc.
Lemma rl_p_MotTextMessageProtocol_TmsServiceAvailabilityAcknowledgement  : relocates (p_MotTextMessageProtocol_TmsServiceAvailabilityAcknowledgement ).
Proof. unfold p_MotTextMessageProtocol_TmsServiceAvailabilityAcknowledgement. rl. Qed.
#[global] Hint Resolve rl_p_MotTextMessageProtocol_TmsServiceAvailabilityAcknowledgement : reloc.
Lemma rl_p_MotTextMessageProtocol rt : relocates (p_MotTextMessageProtocol rt).
Proof. unfold p_MotTextMessageProtocol. rl. Qed.
#[global] Hint Resolve rl_p_MotTextMessageProtocol : reloc.
Lemma rl_p_MotorolaBinaryXml_OpaqueElementValue rt : relocates (p_MotorolaBinaryXml_OpaqueElementValue rt).
Proof. unfold p_MotorolaBinaryXml_OpaqueElementValue. rl. Qed.
#[global] Hint Resolve rl_p_MotorolaBinaryXml_OpaqueElementValue : reloc.
Lemma rl_p_MotorolaBinaryXml_Opaque1byteValue rt : relocates (p_MotorolaBinaryXml_Opaque1byteValue rt).
Proof. unfold p_MotorolaBinaryXml_Opaque1byteValue. rl. Qed.
#[global] Hint Resolve rl_p_MotorolaBinaryXml_Opaque1byteValue : reloc.
Lemma rl_p_MotorolaBinaryXml_Opaque2byteValue rt : relocates (p_MotorolaBinaryXml_Opaque2byteValue rt).
Proof. unfold p_MotorolaBinaryXml_Opaque2byteValue. rl. Qed.
#[global] Hint Resolve rl_p_MotorolaBinaryXml_Opaque2byteValue : reloc.
Lemma rl_p_MotorolaBinaryXml_Opaque3byteValue rt : relocates (p_MotorolaBinaryXml_Opaque3byteValue rt).
Proof. unfold p_MotorolaBinaryXml_Opaque3byteValue. rl. Qed.
#[global] Hint Resolve rl_p_MotorolaBinaryXml_Opaque3byteValue : reloc.
Lemma rl_p_MotorolaBinaryXml_Opaque4byteValue rt : relocates (p_MotorolaBinaryXml_Opaque4byteValue rt).
Proof. unfold p_MotorolaBinaryXml_Opaque4byteValue. rl. Qed.
#[global] Hint Resolve rl_p_MotorolaBinaryXml_Opaque4byteValue : reloc.
Lemma rl_p_MotorolaBinaryXml_Opaque5byteValue rt : relocates (p_MotorolaBinaryXml_Opaque5byteValue rt).
Proof. unfold p_MotorolaBinaryXml_Opaque5byteValue. rl. Qed.
#[global] Hint Resolve rl_p_MotorolaBinaryXml_Opaque5byteValue : reloc.
Lemma rl_var_payload rt n : relocates (var_payload rt n).
Proof. intros. induction n as [|n IH]; cbn [var_payload]; [apply rl_fail|]. rl. Qed.
#[global] Hint Resolve rl_var_payload : reloc.
Lemma rl_p_MotorolaBinaryXml_Uintvar rt : relocates (p_MotorolaBinaryXml_Uintvar rt).
Proof. unfold p_MotorolaBinaryXml_Uintvar. rl. Qed.
#[global] Hint Resolve rl_p_MotorolaBinaryXml_Uintvar : reloc.
Lemma rl_p_MotorolaBinaryXml_Sintvar rt : relocates (p_MotorolaBinaryXml_Sintvar rt).
Proof. unfold p_MotorolaBinaryXml_Sintvar. rl. Qed.
#[global] Hint Resolve rl_p_MotorolaBinaryXml_Sintvar : reloc.
Lemma rl_p_MotorolaBinaryXml_ConstantDataTableReference rt : relocates (p_MotorolaBinaryXml_ConstantDataTableReference rt).
Proof. unfold p_MotorolaBinaryXml_ConstantDataTableReference. rl. Qed.
#[global] Hint Resolve rl_p_MotorolaBinaryXml_ConstantDataTableReference : reloc.
Lemma rl_p_MotorolaBinaryXml_LrrpElement rt : relocates (p_MotorolaBinaryXml_LrrpElement rt).
Proof. unfold p_MotorolaBinaryXml_LrrpElement. rl. Qed.
#[global] Hint Resolve rl_p_MotorolaBinaryXml_LrrpElement : reloc.
Lemma rl_p_MotorolaBinaryXml_LrrpImmediateRequestNcdt rt : relocates (p_MotorolaBinaryXml_LrrpImmediateRequestNcdt rt).
Proof. unfold p_MotorolaBinaryXml_LrrpImmediateRequestNcdt. rl. Qed.
#[global] Hint Resolve rl_p_MotorolaBinaryXml_LrrpImmediateRequestNcdt : reloc.
Lemma rl_p_MotorolaBinaryXml_Sfloatvar rt : relocates (p_MotorolaBinaryXml_Sfloatvar rt).
Proof. unfold p_MotorolaBinaryXml_Sfloatvar. rl. Qed.
#[global] Hint Resolve rl_p_MotorolaBinaryXml_Sfloatvar : reloc.
Lemma rl_p_MotorolaBinaryXml_Ufloatvar rt : relocates (p_MotorolaBinaryXml_Ufloatvar rt).
Proof. unfold p_MotorolaBinaryXml_Ufloatvar. rl. Qed.
#[global] Hint Resolve rl_p_MotorolaBinaryXml_Ufloatvar : reloc.
Lemma rl_p_MotorolaBinaryXml_MbxmlDocument rt : relocates (p_MotorolaBinaryXml_MbxmlDocument rt).
Proof. unfold p_MotorolaBinaryXml_MbxmlDocument. rl. Qed.
#[global] Hint Resolve rl_p_MotorolaBinaryXml_MbxmlDocument : reloc.
Lemma rl_mbxml_documents rt n : relocates (mbxml_documents rt n).
Proof. intros. induction n as [|n IH]; cbn [mbxml_documents]; [apply rl_fail|]. rl. Qed.
#[global] Hint Resolve rl_mbxml_documents : reloc.
Lemma rl_p_MotorolaBinaryXml rt : relocates (p_MotorolaBinaryXml rt).
Proof. unfold p_MotorolaBinaryXml. rl. Qed.
#[global] Hint Resolve rl_p_MotorolaBinaryXml : reloc.

(** The RTP packet uses the size of the stream and its last byte: both are where they were, seen from the end.
    The last byte exists, because the fixed header has been read. *)
Definition keeps {A} (m : M A) : Prop := forall s a s', m s = (Ok a, s') -> s_buf s' = s_buf s.
Definition needs {A} (m : M A) : Prop := forall s, s_buf s = [] -> exists e s', m s = (Err e, s').
Lemma keeps_ret {A} (a : A) : keeps (ret a). Proof. intros s x s' E. unfold ret in E. congruence. Qed.
Lemma keeps_fail {A} e : keeps (@fail A e). Proof. intros s x s' E. discriminate. Qed.
Lemma keeps_bind {A B} (m : M A) (k : A -> M B) : keeps m -> (forall a, keeps (k a)) -> keeps (bind m k).
Proof.
  intros H1 H2 s b s' E. unfold bind in E. destruct (m s) as [[a|e] s1] eqn:Em; [|discriminate]. rewrite (H2 _ _ _ _ E). exact (H1 _ _ _ Em).
Qed.
Lemma keeps_raw n : keeps (raw_read_bytes n).
Proof.
  intros s x s'. unfold raw_read_bytes. destruct (n <? 0); [discriminate|]. unfold io_read. cbv beta iota zeta. set (g := if _ <=? n then _ else _).
  destruct (blen g <? n); [discriminate|]. intros E. injection E as _ <-. reflexivity.
Qed.
Lemma keeps_bytes rt n : keeps (read_bytes rt n).
Proof. intros s x s' E. unfold read_bytes in E. apply keeps_raw in E. rewrite E. now destruct rt. Qed.
Lemma keeps_bits n : keeps (read_bits n).
Proof.
  intros s x s' E. unfold read_bits in E. cbv zeta in E. destruct (0 <? n - s_left s).
  - match type of E with (match ?r with _ => _ end) = _ => destruct r as [[y|e] s2] eqn:R end; [|discriminate]. apply keeps_raw in R. injection E as _ <-. exact R.
  - injection E as _ <-. reflexivity.
Qed.
Lemma keeps_align : keeps align_to_byte. Proof. intros s x s' E. unfold align_to_byte in E. injection E as _ <-. reflexivity. Qed.
Lemma needs_left {A B} (m : M A) (k : A -> M B) : needs m -> needs (bind m k).
Proof. intros H s Hs. unfold bind. destruct (H s Hs) as [e [s' ->]]. eauto. Qed.
Lemma needs_right {A B} (m : M A) (k : A -> M B) : keeps m -> (forall a, needs (k a)) -> needs (bind m k).
Proof.
  intros K H s Hs. unfold bind. destruct (m s) as [[a|e] s1] eqn:E; [|eauto]. apply H. now rewrite (K _ _ _ E).
Qed.
Lemma needs_bytes rt n : 0 < n -> needs (read_bytes rt n).
Proof.
  intros Hn s Hs. unfold read_bytes, raw_read_bytes. destruct (Z.ltb_spec n 0); [lia|]. unfold io_read. cbv beta iota zeta.
  replace (s_buf (auto_align rt s)) with (@nil byte) by (destruct rt; now cbn [auto_align align_state s_buf]). rewrite skipn_nil, firstn_nil. cbn [blen List.length].
  replace (if blen [] <=? n then [] else []) with (@nil byte) by (destruct (_ <=? n); reflexivity). change (blen []) with 0. destruct (Z.ltb_spec 0 n); [eauto|lia].
Qed.
Lemma keeps_flag : keeps read_flag. Proof. apply keeps_bind; [apply keeps_bits|intros; apply keeps_ret]. Qed.
Lemma fixed_header_needs rt : needs (p_RealTimeTransportProtocol_FixedHeader rt).
Proof.
  unfold p_RealTimeTransportProtocol_FixedHeader. apply needs_right; [apply keeps_bits|intros v]. apply needs_right; [destruct (v =? 2); [apply keeps_ret|apply keeps_fail]|intros _].
  do 2 (apply needs_right; [apply keeps_flag|intros ?]). apply needs_right; [apply keeps_bits|intros ?]. apply needs_right; [apply keeps_flag|intros ?].
  apply needs_right; [apply keeps_bits|intros ?]. apply needs_right; [apply keeps_align|intros ?]. apply needs_left. apply needs_left. apply needs_bytes. lia.
Qed.
Lemma keeps_u2be rt : keeps (read_u2be rt). Proof. apply keeps_bind; [apply keeps_bytes|intros; apply keeps_ret]. Qed.
Lemma keeps_u4be rt : keeps (read_u4be rt). Proof. apply keeps_bind; [apply keeps_bytes|intros; apply keeps_ret]. Qed.
Lemma keeps_u1 rt : keeps (read_u1 rt). Proof. apply keeps_bind; [apply keeps_bytes|intros; apply keeps_ret]. Qed.
Lemma keeps_repeat n m : keeps m -> keeps (repeat_n n m).
Proof. intros H. induction n as [|n IH]; cbn [repeat_n]; [apply keeps_ret|]. apply keeps_bind; [exact H|intros]. apply keeps_bind; [exact IH|intros]. apply keeps_ret. Qed.
Lemma fixed_header_keeps rt : keeps (p_RealTimeTransportProtocol_FixedHeader rt).
Proof.
  unfold p_RealTimeTransportProtocol_FixedHeader. repeat first [apply keeps_bits|apply keeps_flag|apply keeps_u2be|apply keeps_u4be|apply keeps_align|apply keeps_ret|apply keeps_fail
    |apply keeps_repeat|apply keeps_bind; [|intros ?]|match goal with |- keeps (if ?c then _ else _) => destruct c end].
Qed.
Lemma radio_id_keeps rt : keeps (p_RadioId rt).
Proof. unfold p_RadioId, obj; cbn [seq]. unfold vint, vbytes. repeat first [apply keeps_bits|apply keeps_u1|apply keeps_bytes|apply keeps_ret|apply keeps_bind; [|intros ?]]. Qed.
Lemma extension_keeps rt : keeps (p_RealTimeTransportProtocol_HeaderExtension rt).
Proof.
  unfold p_RealTimeTransportProtocol_HeaderExtension, obj; cbn [seq]. unfold vint, vbits, vflag, venum, vbytes, aligned.
  repeat first [apply keeps_bits|apply keeps_flag|apply keeps_u1|apply keeps_u2be|apply keeps_bytes|apply keeps_align|apply radio_id_keeps|apply keeps_ret|apply keeps_bind; [|intros ?]].
Qed.
Lemma padding_behind rt pre s : s_buf s <> [] ->
  RealTimeTransportProtocol_len_padding_if_exists rt (behind pre s) = moved pre (RealTimeTransportProtocol_len_padding_if_exists rt s).
Proof.
  intros Hs. unfold RealTimeTransportProtocol_len_padding_if_exists, bind, io_pos, io_size, io_seek.
  assert (L : (0 < List.length (s_buf s))%nat) by (destruct (s_buf s); [now destruct Hs|cbn [List.length]; lia]).
  assert (E : set_pos (auto_align rt (behind pre s)) (Z.to_nat (blen (s_buf (behind pre s)) - 1)) = behind pre (set_pos (auto_align rt s) (Z.to_nat (blen (s_buf s) - 1)))).
  { replace (Z.to_nat (blen (s_buf (behind pre s)) - 1)) with (List.length pre + Z.to_nat (blen (s_buf s) - 1))%nat by (cbn [behind s_buf]; unfold blen; rewrite app_length; lia). now destruct rt. }
  rewrite E. set (u := set_pos _ (Z.to_nat (blen (s_buf s) - 1))). pose proof (rl_u1 rt pre u) as R. destruct (read_u1 rt u) as [[n|e] s2] eqn:E2.
  - rewrite R by discriminate. unfold moved. cbn [fst snd ret]. do 2 f_equal. cbn [behind s_pos]. rewrite !Nat2Z.id. now destruct rt.
  - assert (Ne : e <> OutOfFuel).
    { intros ->. unfold read_u1, bind, read_bytes, raw_read_bytes in E2. cbn [Z.ltb Z.compare] in E2. destruct (io_read 1 (auto_align rt u)) as [g s3]. destruct (blen g <? 1); discriminate. }
    rewrite R by (cbn [fst]; intros X; apply Ne; congruence). reflexivity.
Qed.
Definition moves_at {A} (m : M A) (pre : bytes) (s : stream) : Prop := fst (m s) <> Err OutOfFuel -> m (behind pre s) = moved pre (m s).
Lemma at_of {A} (m : M A) pre s : relocates m -> moves_at m pre s. Proof. intros H. exact (H pre s). Qed.
Lemma at_bind {A B} (m : M A) (k : A -> M B) pre s : moves_at m pre s -> (forall a s', m s = (Ok a, s') -> moves_at (k a) pre s') -> moves_at (bind m k) pre s.
Proof.
  intros H1 H2 N. unfold bind in *. unfold moves_at in *. destruct (m s) as [[a|e] s1]; cbn [fst] in *.
  - rewrite H1 by discriminate. cbn [moved fst snd]. apply (H2 a s1 eq_refl). exact N.
  - rewrite H1 by congruence. reflexivity.
Qed.
Lemma rl_p_RealTimeTransportProtocol rt : relocates (p_RealTimeTransportProtocol rt).
Proof.
  intros pre s. change (moves_at (p_RealTimeTransportProtocol rt) pre s). unfold p_RealTimeTransportProtocol.
  apply at_bind; [apply at_of, rl_p_RealTimeTransportProtocol_FixedHeader|]. intros h s1 E1.
  assert (Hs : s_buf s1 <> []).
  { intros Z. rewrite (fixed_header_keeps _ _ _ _ E1) in Z. destruct (fixed_header_needs rt s Z) as [e [s' E]]. congruence. }
  apply at_bind; [apply at_of, rl_flag_of|]. intros ext s1' F. assert (s1' = s1) by (unfold flag_of in F; destruct (getattr _ _) as [[]|]; unfold ret, fail in F; congruence). subst s1'. clear F.
  apply at_bind; [apply at_of; destruct ext; [apply rl_some, rl_p_RealTimeTransportProtocol_HeaderExtension|apply rl_none]|]. intros he s2 E2.
  assert (Hs2 : s_buf s2 <> []).
  { enough (s_buf s2 = s_buf s1) by congruence. destruct ext; [|unfold none, ret in E2; congruence].
    unfold some in E2. revert E2. apply keeps_bind; [apply extension_keeps|intros; apply keeps_ret]. }
  set (K := fun (d : Z) (hp : bool) (lp : attrs * Z) => audio_data <- read_bytes rt (d - snd lp);;
    padding <- (if hp then some (vbytes rt (snd lp)) else none);;
    ret (VObj "RealTimeTransportProtocol" ([("fixed_header", h)] ++ opt "header_extension" he ++ fst lp ++ [("audio_data", VBytes audio_data)] ++ opt "padding" padding))).
  assert (RK : forall d hp lp, relocates (K d hp lp)) by (intros; unfold K; rl).
  assert (G : moves_at (has_padding <- flag_of "padding" h;; lp <- RealTimeTransportProtocol_len_padding rt has_padding;; K (blen (s_buf s2) - Z.of_nat (s_pos s2)) has_padding lp) pre s2).
  { apply at_bind; [apply at_of, rl_flag_of|]. intros hp s3 F. assert (s3 = s2) by (unfold flag_of in F; destruct (getattr _ _) as [[]|]; unfold ret, fail in F; congruence). subst s3. clear F.
    apply at_bind; [|intros; apply at_of, RK]. unfold RealTimeTransportProtocol_len_padding. destruct hp; [|apply at_of, rl_ret].
    apply at_bind; [intros _; now apply padding_behind|intros; apply at_of, rl_ret]. }
  unfold moves_at in *. unfold bind at 1 2 in G. unfold bind, io_size, io_pos. unfold bind in G.
  replace (blen (s_buf (behind pre s2)) - Z.of_nat (s_pos (behind pre s2))) with (blen (s_buf s2) - Z.of_nat (s_pos s2))
    by (cbn [behind s_buf s_pos]; unfold blen; rewrite app_length; lia).
  exact G.
Qed.
#[global] Hint Resolve rl_p_RealTimeTransportProtocol : reloc.

(** A Hytera application message other than a telemetry message. *)
Lemma header_type b s1 s2 f mh : read_flag (stream_of b) = (Ok f, s1) -> venum HyteraDmrApplicationProtocol_MessageHeaderTypes (read_bits 7) s1 = (Ok mh, s2) ->
  mh = resolve_enum HyteraDmrApplicationProtocol_MessageHeaderTypes (ubits b 1 7).
Proof.
  intros E1 E2. pose proof (run_read_flag b 0 0 ltac:(lia) ltac:(lia) (or_introl eq_refl)) as R1. rewrite at_init in E1. unfold runM in R1. rewrite E1 in R1.
  destruct (fits b 0 (0 + 1)) eqn:F; [|discriminate]. assert (S1 : s1 = at_ b 0 (0 + 1)) by congruence. subst s1.
  pose proof (run_read_bits b 0 (0 + 1) 7 ltac:(lia) ltac:(lia) ltac:(lia) (or_intror F)) as R2. unfold venum, bind in E2. unfold runM in R2.
  destruct (read_bits 7 (at_ b 0 (0 + 1))) as [[x|e] s3]; [|discriminate]. unfold ret in E2. destruct (fits b 0 (0 + 1 + 7)); [|discriminate].
  assert (X : x = ubits b (8 * 0 + (0 + 1)) 7) by congruence. change (8 * 0 + (0 + 1)) with 1 in X. congruence.
Qed.
Lemma hdap_moves rt pre b : ubits b 1 7 <> 0x12 -> moves_at (p_HyteraDmrApplicationProtocol rt) pre (stream_of b).
Proof.
  intros H. unfold p_HyteraDmrApplicationProtocol. apply at_bind; [apply at_of, rl_flag|]. intros f s1 E1.
  apply at_bind; [apply at_of; auto with reloc|]. intros mh s2 E2. pose proof (header_type _ _ _ _ _ E1 E2) as M.
  assert (T : eq_member HyteraDmrApplicationProtocol_MessageHeaderTypes "telemetry_protocol" mh = false).
  { rewrite M. generalize (ubits b 1 7) H. intros x Hx. unfold resolve_enum, HyteraDmrApplicationProtocol_MessageHeaderTypes. cbn [en_members en_find].
    repeat match goal with |- context [?a =? ?b] => destruct (Z.eqb_spec a b); [first [reflexivity|congruence]|] end. reflexivity. }
  rewrite T. apply at_of. rl.
Qed.
