From Verif Require Import PyBase Runtime Codec Spec RuntimeProofs Enums EnumProofs Getters EtsiModel EtsiSpec.
Open Scope string_scope.
Open Scope list_scope.
Open Scope Z_scope.

(** a straight-line class against its table *)
Ltac straight := intros; apply runs_obj; [lia|assumption|discriminate|seqok].

Section S.
Context (rt : runtime).
Notation runs8 p w f := (forall c, 0 <= c -> c mod 8 = 0 -> runs_at p c (KSub w f)).

Lemma r_DmrCsbk_NegativeAckResponseData : runs8 p_DmrCsbk_NegativeAckResponseData 64 (object "DmrCsbk.NegativeAckResponseData" L_DmrCsbk_NegativeAckResponseData).
Proof. straight. Qed.
#[local] Hint Extern 1 (runs_at p_DmrCsbk_NegativeAckResponseData _ _) => apply r_DmrCsbk_NegativeAckResponseData; [lia|reflexivity] : runs.

Lemma r_DmrCsbk_ServiceOptions : runs8 p_DmrCsbk_ServiceOptions 8 (object "DmrCsbk.ServiceOptions" L_DmrCsbk_ServiceOptions).
Proof. straight. Qed.
#[local] Hint Extern 1 (runs_at p_DmrCsbk_ServiceOptions _ _) => apply r_DmrCsbk_ServiceOptions; [lia|reflexivity] : runs.

Lemma r_DmrCsbk_UnitToUnitVoiceRequestData : runs8 p_DmrCsbk_UnitToUnitVoiceRequestData 64 (object "DmrCsbk.UnitToUnitVoiceRequestData" L_DmrCsbk_UnitToUnitVoiceRequestData).
Proof. straight. Qed.
#[local] Hint Extern 1 (runs_at p_DmrCsbk_UnitToUnitVoiceRequestData _ _) => apply r_DmrCsbk_UnitToUnitVoiceRequestData; [lia|reflexivity] : runs.

Lemma r_DmrCsbk_PreambleData : runs8 p_DmrCsbk_PreambleData 64 (object "DmrCsbk.PreambleData" L_DmrCsbk_PreambleData).
Proof. straight. Qed.
#[local] Hint Extern 1 (runs_at p_DmrCsbk_PreambleData _ _) => apply r_DmrCsbk_PreambleData; [lia|reflexivity] : runs.

Lemma r_DmrCsbk_ChannelTimingData : runs8 p_DmrCsbk_ChannelTimingData 64 (object "DmrCsbk.ChannelTimingData" L_DmrCsbk_ChannelTimingData).
Proof. straight. Qed.
#[local] Hint Extern 1 (runs_at p_DmrCsbk_ChannelTimingData _ _) => apply r_DmrCsbk_ChannelTimingData; [lia|reflexivity] : runs.

Lemma r_DmrCsbk_BsOutboundActivationData : runs8 p_DmrCsbk_BsOutboundActivationData 64 (object "DmrCsbk.BsOutboundActivationData" L_DmrCsbk_BsOutboundActivationData).
Proof. straight. Qed.
#[local] Hint Extern 1 (runs_at p_DmrCsbk_BsOutboundActivationData _ _) => apply r_DmrCsbk_BsOutboundActivationData; [lia|reflexivity] : runs.

Lemma r_DmrCsbk_UnitToUnitVoiceAnswerData : runs8 p_DmrCsbk_UnitToUnitVoiceAnswerData 64 (object "DmrCsbk.UnitToUnitVoiceAnswerData" L_DmrCsbk_UnitToUnitVoiceAnswerData).
Proof. straight. Qed.
#[local] Hint Extern 1 (runs_at p_DmrCsbk_UnitToUnitVoiceAnswerData _ _) => apply r_DmrCsbk_UnitToUnitVoiceAnswerData; [lia|reflexivity] : runs.

Lemma r_DmrData_Rate1LastBlockUnconfirmed : runs8 (p_DmrData_Rate1LastBlockUnconfirmed rt) 192 (object "DmrData.Rate1LastBlockUnconfirmed" L_DmrData_Rate1LastBlockUnconfirmed).
Proof. straight. Qed.
#[local] Hint Extern 1 (runs_at (p_DmrData_Rate1LastBlockUnconfirmed rt) _ _) => apply r_DmrData_Rate1LastBlockUnconfirmed; [lia|reflexivity] : runs.

Lemma r_DmrData_Rate12LastBlockConfirmed : runs8 (p_DmrData_Rate12LastBlockConfirmed rt) 96 (object "DmrData.Rate12LastBlockConfirmed" L_DmrData_Rate12LastBlockConfirmed).
Proof. straight. Qed.
#[local] Hint Extern 1 (runs_at (p_DmrData_Rate12LastBlockConfirmed rt) _ _) => apply r_DmrData_Rate12LastBlockConfirmed; [lia|reflexivity] : runs.

Lemma r_DmrData_Rate12Confirmed : runs8 (p_DmrData_Rate12Confirmed rt) 96 (object "DmrData.Rate12Confirmed" L_DmrData_Rate12Confirmed).
Proof. straight. Qed.
#[local] Hint Extern 1 (runs_at (p_DmrData_Rate12Confirmed rt) _ _) => apply r_DmrData_Rate12Confirmed; [lia|reflexivity] : runs.

Lemma r_DmrData_Rate34LastBlockUnconfirmed : runs8 (p_DmrData_Rate34LastBlockUnconfirmed rt) 144 (object "DmrData.Rate34LastBlockUnconfirmed" L_DmrData_Rate34LastBlockUnconfirmed).
Proof. straight. Qed.
#[local] Hint Extern 1 (runs_at (p_DmrData_Rate34LastBlockUnconfirmed rt) _ _) => apply r_DmrData_Rate34LastBlockUnconfirmed; [lia|reflexivity] : runs.

Lemma r_DmrData_Rate1LastBlockConfirmed : runs8 (p_DmrData_Rate1LastBlockConfirmed rt) 192 (object "DmrData.Rate1LastBlockConfirmed" L_DmrData_Rate1LastBlockConfirmed).
Proof. straight. Qed.
#[local] Hint Extern 1 (runs_at (p_DmrData_Rate1LastBlockConfirmed rt) _ _) => apply r_DmrData_Rate1LastBlockConfirmed; [lia|reflexivity] : runs.

Lemma r_DmrData_Rate1Unconfirmed : runs8 (p_DmrData_Rate1Unconfirmed rt) 192 (object "DmrData.Rate1Unconfirmed" L_DmrData_Rate1Unconfirmed).
Proof. straight. Qed.
#[local] Hint Extern 1 (runs_at (p_DmrData_Rate1Unconfirmed rt) _ _) => apply r_DmrData_Rate1Unconfirmed; [lia|reflexivity] : runs.

Lemma r_DmrData_UdtLastBlock : runs8 (p_DmrData_UdtLastBlock rt) 96 (object "DmrData.UdtLastBlock" L_DmrData_UdtLastBlock).
Proof. straight. Qed.
#[local] Hint Extern 1 (runs_at (p_DmrData_UdtLastBlock rt) _ _) => apply r_DmrData_UdtLastBlock; [lia|reflexivity] : runs.

Lemma r_DmrData_Rate34Confirmed : runs8 (p_DmrData_Rate34Confirmed rt) 144 (object "DmrData.Rate34Confirmed" L_DmrData_Rate34Confirmed).
Proof. straight. Qed.
#[local] Hint Extern 1 (runs_at (p_DmrData_Rate34Confirmed rt) _ _) => apply r_DmrData_Rate34Confirmed; [lia|reflexivity] : runs.

Lemma r_DmrData_Rate34LastBlockConfirmed : runs8 (p_DmrData_Rate34LastBlockConfirmed rt) 144 (object "DmrData.Rate34LastBlockConfirmed" L_DmrData_Rate34LastBlockConfirmed).
Proof. straight. Qed.
#[local] Hint Extern 1 (runs_at (p_DmrData_Rate34LastBlockConfirmed rt) _ _) => apply r_DmrData_Rate34LastBlockConfirmed; [lia|reflexivity] : runs.

Lemma r_DmrData_Rate34Unconfirmed : runs8 (p_DmrData_Rate34Unconfirmed rt) 144 (object "DmrData.Rate34Unconfirmed" L_DmrData_Rate34Unconfirmed).
Proof. straight. Qed.
#[local] Hint Extern 1 (runs_at (p_DmrData_Rate34Unconfirmed rt) _ _) => apply r_DmrData_Rate34Unconfirmed; [lia|reflexivity] : runs.

Lemma r_DmrData_Rate12LastBlockUnconfirmed : runs8 (p_DmrData_Rate12LastBlockUnconfirmed rt) 96 (object "DmrData.Rate12LastBlockUnconfirmed" L_DmrData_Rate12LastBlockUnconfirmed).
Proof. straight. Qed.
#[local] Hint Extern 1 (runs_at (p_DmrData_Rate12LastBlockUnconfirmed rt) _ _) => apply r_DmrData_Rate12LastBlockUnconfirmed; [lia|reflexivity] : runs.

Lemma r_DmrData_Rate1Confirmed : runs8 (p_DmrData_Rate1Confirmed rt) 192 (object "DmrData.Rate1Confirmed" L_DmrData_Rate1Confirmed).
Proof. straight. Qed.
#[local] Hint Extern 1 (runs_at (p_DmrData_Rate1Confirmed rt) _ _) => apply r_DmrData_Rate1Confirmed; [lia|reflexivity] : runs.

Lemma r_DmrData_Rate12Unconfirmed : runs8 (p_DmrData_Rate12Unconfirmed rt) 96 (object "DmrData.Rate12Unconfirmed" L_DmrData_Rate12Unconfirmed).
Proof. straight. Qed.
#[local] Hint Extern 1 (runs_at (p_DmrData_Rate12Unconfirmed rt) _ _) => apply r_DmrData_Rate12Unconfirmed; [lia|reflexivity] : runs.

Lemma r_DmrDataHeader_DataHeaderShortRaw : runs8 (p_DmrDataHeader_DataHeaderShortRaw rt) 96 (object "DmrDataHeader.DataHeaderShortRaw" L_DmrDataHeader_DataHeaderShortRaw).
Proof. straight. Qed.
#[local] Hint Extern 1 (runs_at (p_DmrDataHeader_DataHeaderShortRaw rt) _ _) => apply r_DmrDataHeader_DataHeaderShortRaw; [lia|reflexivity] : runs.

Lemma r_DmrDataHeader_DataHeaderProprietary : runs8 (p_DmrDataHeader_DataHeaderProprietary rt) 96 (object "DmrDataHeader.DataHeaderProprietary" L_DmrDataHeader_DataHeaderProprietary).
Proof. straight. Qed.
#[local] Hint Extern 1 (runs_at (p_DmrDataHeader_DataHeaderProprietary rt) _ _) => apply r_DmrDataHeader_DataHeaderProprietary; [lia|reflexivity] : runs.

Lemma r_DmrDataHeader_DataHeaderShortStatusPrecoded : runs8 (p_DmrDataHeader_DataHeaderShortStatusPrecoded rt) 96 (object "DmrDataHeader.DataHeaderShortStatusPrecoded" L_DmrDataHeader_DataHeaderShortStatusPrecoded).
Proof. straight. Qed.
#[local] Hint Extern 1 (runs_at (p_DmrDataHeader_DataHeaderShortStatusPrecoded rt) _ _) => apply r_DmrDataHeader_DataHeaderShortStatusPrecoded; [lia|reflexivity] : runs.

Lemma r_DmrDataHeader_DataHeaderResponse : runs8 (p_DmrDataHeader_DataHeaderResponse rt) 96 (object "DmrDataHeader.DataHeaderResponse" L_DmrDataHeader_DataHeaderResponse).
Proof. straight. Qed.
#[local] Hint Extern 1 (runs_at (p_DmrDataHeader_DataHeaderResponse rt) _ _) => apply r_DmrDataHeader_DataHeaderResponse; [lia|reflexivity] : runs.

Lemma r_DmrDataHeader_DataHeaderConfirmed : runs8 (p_DmrDataHeader_DataHeaderConfirmed rt) 96 (object "DmrDataHeader.DataHeaderConfirmed" L_DmrDataHeader_DataHeaderConfirmed).
Proof. straight. Qed.
#[local] Hint Extern 1 (runs_at (p_DmrDataHeader_DataHeaderConfirmed rt) _ _) => apply r_DmrDataHeader_DataHeaderConfirmed; [lia|reflexivity] : runs.

Lemma r_DmrDataHeader_DataHeaderUnconfirmed : runs8 (p_DmrDataHeader_DataHeaderUnconfirmed rt) 96 (object "DmrDataHeader.DataHeaderUnconfirmed" L_DmrDataHeader_DataHeaderUnconfirmed).
Proof. straight. Qed.
#[local] Hint Extern 1 (runs_at (p_DmrDataHeader_DataHeaderUnconfirmed rt) _ _) => apply r_DmrDataHeader_DataHeaderUnconfirmed; [lia|reflexivity] : runs.

Lemma r_DmrDataHeader_DataHeaderShortDefined : runs8 (p_DmrDataHeader_DataHeaderShortDefined rt) 96 (object "DmrDataHeader.DataHeaderShortDefined" L_DmrDataHeader_DataHeaderShortDefined).
Proof. straight. Qed.
#[local] Hint Extern 1 (runs_at (p_DmrDataHeader_DataHeaderShortDefined rt) _ _) => apply r_DmrDataHeader_DataHeaderShortDefined; [lia|reflexivity] : runs.

Lemma r_DmrDataHeader_DataHeaderUdt : runs8 (p_DmrDataHeader_DataHeaderUdt rt) 96 (object "DmrDataHeader.DataHeaderUdt" L_DmrDataHeader_DataHeaderUdt).
Proof. straight. Qed.
#[local] Hint Extern 1 (runs_at (p_DmrDataHeader_DataHeaderUdt rt) _ _) => apply r_DmrDataHeader_DataHeaderUdt; [lia|reflexivity] : runs.

Lemma r_DmrDataHeader : runs8 p_DmrDataHeader 8 (object "DmrDataHeader" L_DmrDataHeader).
Proof. straight. Qed.
#[local] Hint Extern 1 (runs_at p_DmrDataHeader _ _) => apply r_DmrDataHeader; [lia|reflexivity] : runs.

Lemma r_FullLinkControl_GpsInfoLcPdu : runs8 p_FullLinkControl_GpsInfoLcPdu 56 (object "FullLinkControl.GpsInfoLcPdu" L_FullLinkControl_GpsInfoLcPdu).
Proof. straight. Qed.
#[local] Hint Extern 1 (runs_at p_FullLinkControl_GpsInfoLcPdu _ _) => apply r_FullLinkControl_GpsInfoLcPdu; [lia|reflexivity] : runs.

Lemma r_FullLinkControl_GroupVoiceChannelUser : runs8 p_FullLinkControl_GroupVoiceChannelUser 56 (object "FullLinkControl.GroupVoiceChannelUser" L_FullLinkControl_GroupVoiceChannelUser).
Proof. straight. Qed.
#[local] Hint Extern 1 (runs_at p_FullLinkControl_GroupVoiceChannelUser _ _) => apply r_FullLinkControl_GroupVoiceChannelUser; [lia|reflexivity] : runs.

Lemma r_FullLinkControl_UnitToUnitVoiceChannelUser : runs8 p_FullLinkControl_UnitToUnitVoiceChannelUser 56 (object "FullLinkControl.UnitToUnitVoiceChannelUser" L_FullLinkControl_UnitToUnitVoiceChannelUser).
Proof. straight. Qed.
#[local] Hint Extern 1 (runs_at p_FullLinkControl_UnitToUnitVoiceChannelUser _ _) => apply r_FullLinkControl_UnitToUnitVoiceChannelUser; [lia|reflexivity] : runs.

Lemma r_FullLinkControl_TalkerAliasHeader : runs8 p_FullLinkControl_TalkerAliasHeader 56 (object "FullLinkControl.TalkerAliasHeader" L_FullLinkControl_TalkerAliasHeader).
Proof. straight. Qed.
#[local] Hint Extern 1 (runs_at p_FullLinkControl_TalkerAliasHeader _ _) => apply r_FullLinkControl_TalkerAliasHeader; [lia|reflexivity] : runs.

Lemma r_FullLinkControl_TalkerAliasContinuation : runs8 p_FullLinkControl_TalkerAliasContinuation 56 (object "FullLinkControl.TalkerAliasContinuation" L_FullLinkControl_TalkerAliasContinuation).
Proof. straight. Qed.
#[local] Hint Extern 1 (runs_at p_FullLinkControl_TalkerAliasContinuation _ _) => apply r_FullLinkControl_TalkerAliasContinuation; [lia|reflexivity] : runs.




Lemma csbk_ok b : from_bytes p_DmrCsbk b = csbk_spec b.
Proof.
  rewrite from_bytes_runM, at_init. unfold p_DmrCsbk, csbk_spec, L_csbk_header. unf. spec_cbn.
  do 20 (try rd1; try fit).
  dispatch (ubits b 2 6) csbk_bodies.
  1-6: sub.
  all: repeat rd1; reflexivity.
Qed.

Lemma udp_ok b : from_bytes (p_DmrIpUdp_UdpIpv4CompressedHeader rt) b = udp_spec b.
Proof.
  rewrite from_bytes_runM, at_init. unfold p_DmrIpUdp_UdpIpv4CompressedHeader, udp_spec, L_udp_header. unf. spec_cbn.
  do 30 (try rd1; try fit).
  rewrite !(eq_member_code _ _ 0) by reflexivity.
  destruct (ubits b 25 7 =? 0); destruct (ubits b 33 7 =? 0).
  all: cbv zeta; cbv iota; fits_norm; repeat (first [fit|rd1]); reflexivity.
Qed.

Lemma flc_ok b : from_bytes (p_FullLinkControl rt) b = flc_spec b.
Proof.
  rewrite from_bytes_runM, at_init. unfold p_FullLinkControl, flc_spec, L_flc_header. unf. spec_cbn.
  do 30 (try fit; try rd1).
  dispatch (ubits b 2 6) flc_bodies.
  1-7: sub.
  all: cbv zeta; repeat rd1; norm_lits; cbn [rbind optional].
  all: match goal with |- context [blen ?x - ?p >=? 3] =>
         match goal with |- context [?q <=? blen x] => replace (blen x - p >=? 3) with (q <=? blen x) by lia; destruct (q <=? blen x) eqn:Hq; destruct (blen x <=? 10) eqn:Ht; try (exfalso; lia) end end.
  all: repeat (first [rd1|fit_lia|fits_norm;fit|match goal with H : (_ <=? _) = _ |- _ => rewrite H; cbv iota end]); repeat fitany; try reflexivity.
Qed.
(** the bodies of the data header: straight-line classes parsed from a separate 12-octet stream *)
Lemma data_header_body_ok (b : bytes) (raw : bytes) (z : Z) :
  from_bytes (data_header_body rt (resolve_enum DmrDataHeader_DataPacketFormats z)) raw =
  match select z data_header_bodies with
  | Some f => f raw 0
  | None => Ok (VObj "DmrDataHeader.DataHeaderUndefined" [("bytedata", VBytes raw)])
  end.
Proof.
  unfold data_header_body. dispatch z data_header_bodies.
  1-7: apply from_bytes_obj; seqok.
  unfold p_DmrDataHeader_DataHeaderUndefined. rewrite from_bytes_runM, at_init.
  unfold obj. cbn [seq]. unf. repeat rd1. reflexivity.
Qed.

End S.
