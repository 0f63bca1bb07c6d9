(** Tactics for KsyProofs*.v: an interpreted definition and a parser of the model perform the same actions. *)
From Verif Require Import PyBase Runtime Codec Enums EtsiModel HomebrewModel HyteraModel MotorolaModel CodecProofs Ksy KsyDefs.
Open Scope string_scope.
Open Scope list_scope.
Open Scope Z_scope.

(** type [t] of the definitions, read inside any objects, is the parser [p] *)
Definition reads0 (rt : runtime) (t : typ) (p : M pyval) : Prop := forall s, run_typ rt t [] s = (v <- p;; ret (v, [])) s.
Definition reads (rt : runtime) (t : typ) (p : M pyval) : Prop := forall fs s, run_typ rt t fs s = (v <- p;; ret (v, fs)) s.

(** ** The enums of the definitions and of the generated classes are the same *)
Lemma E_DmrCsbk_CsbkoTypes : K_DmrCsbk_CsbkoTypes = DmrCsbk_CsbkoTypes. Proof. reflexivity. Qed.
Lemma E_DmrCsbk_CsbkDataOrCsbk : K_DmrCsbk_CsbkDataOrCsbk = DmrCsbk_CsbkDataOrCsbk. Proof. reflexivity. Qed.
Lemma E_DmrCsbk_CsbkGroupOrIndividual : K_DmrCsbk_CsbkGroupOrIndividual = DmrCsbk_CsbkGroupOrIndividual. Proof. reflexivity. Qed.
Lemma E_DmrCsbk_AnswerResponse : K_DmrCsbk_AnswerResponse = DmrCsbk_AnswerResponse. Proof. reflexivity. Qed.
Lemma E_DmrDataHeader_DataPacketFormats : K_DmrDataHeader_DataPacketFormats = DmrDataHeader_DataPacketFormats. Proof. reflexivity. Qed.
Lemma E_DmrDataHeader_SapIdentifiers : K_DmrDataHeader_SapIdentifiers = DmrDataHeader_SapIdentifiers. Proof. reflexivity. Qed.
Lemma E_DmrDataHeader_UdtFormats : K_DmrDataHeader_UdtFormats = DmrDataHeader_UdtFormats. Proof. reflexivity. Qed.
Lemma E_DmrDataHeader_CsbkMbcUdtOpcodes : K_DmrDataHeader_CsbkMbcUdtOpcodes = DmrDataHeader_CsbkMbcUdtOpcodes. Proof. reflexivity. Qed.
Lemma E_DmrDataHeader_DefinedDataFormats : K_DmrDataHeader_DefinedDataFormats = DmrDataHeader_DefinedDataFormats. Proof. reflexivity. Qed.
Lemma E_DmrDataHeader_ResponsePacketClasses : K_DmrDataHeader_ResponsePacketClasses = DmrDataHeader_ResponsePacketClasses. Proof. reflexivity. Qed.
Lemma E_DmrIpUdp_SourceIpAddressIds : K_DmrIpUdp_SourceIpAddressIds = DmrIpUdp_SourceIpAddressIds. Proof. reflexivity. Qed.
Lemma E_DmrIpUdp_DestinationIpAddressIds : K_DmrIpUdp_DestinationIpAddressIds = DmrIpUdp_DestinationIpAddressIds. Proof. reflexivity. Qed.
Lemma E_DmrIpUdp_UdpPortIds : K_DmrIpUdp_UdpPortIds = DmrIpUdp_UdpPortIds. Proof. reflexivity. Qed.
Lemma E_FullLinkControl_Flcos : K_FullLinkControl_Flcos = FullLinkControl_Flcos. Proof. reflexivity. Qed.
Lemma E_FullLinkControl_PositionErrors : K_FullLinkControl_PositionErrors = FullLinkControl_PositionErrors. Proof. reflexivity. Qed.
Lemma E_FullLinkControl_TalkerDataFormats : K_FullLinkControl_TalkerDataFormats = FullLinkControl_TalkerDataFormats. Proof. reflexivity. Qed.
Lemma E_FullLinkControl_FeatureSetIds : K_FullLinkControl_FeatureSetIds = FullLinkControl_FeatureSetIds. Proof. reflexivity. Qed.
Lemma E_Homebrew2015_Timeslots : K_Homebrew2015_Timeslots = Homebrew2015_Timeslots. Proof. reflexivity. Qed.
Lemma E_Homebrew2015_CallTypes : K_Homebrew2015_CallTypes = Homebrew2015_CallTypes. Proof. reflexivity. Qed.
Lemma E_Homebrew2015_FrameTypes : K_Homebrew2015_FrameTypes = Homebrew2015_FrameTypes. Proof. reflexivity. Qed.
Lemma E_Mmdvm2020_Timeslots : K_Mmdvm2020_Timeslots = Mmdvm2020_Timeslots. Proof. reflexivity. Qed.
Lemma E_Mmdvm2020_CallTypes : K_Mmdvm2020_CallTypes = Mmdvm2020_CallTypes. Proof. reflexivity. Qed.
Lemma E_Mmdvm2020_FrameTypes : K_Mmdvm2020_FrameTypes = Mmdvm2020_FrameTypes. Proof. reflexivity. Qed.
Lemma E_Mmdvm2020_TalkerAliasTypes : K_Mmdvm2020_TalkerAliasTypes = Mmdvm2020_TalkerAliasTypes. Proof. reflexivity. Qed.
Lemma E_Mmdvm2020_PositionErrors : K_Mmdvm2020_PositionErrors = Mmdvm2020_PositionErrors. Proof. reflexivity. Qed.
Lemma E_DataDeliveryStates_StateTypes : K_DataDeliveryStates_StateTypes = DataDeliveryStates_StateTypes. Proof. reflexivity. Qed.
Lemma E_DataDeliveryStates_Results : K_DataDeliveryStates_Results = DataDeliveryStates_Results. Proof. reflexivity. Qed.
Lemma E_DataTransmitProtocol_ServiceTypes : K_DataTransmitProtocol_ServiceTypes = DataTransmitProtocol_ServiceTypes. Proof. reflexivity. Qed.
Lemma E_DataTransmitProtocol_ServiceSpecificTypes : K_DataTransmitProtocol_ServiceSpecificTypes = DataTransmitProtocol_ServiceSpecificTypes. Proof. reflexivity. Qed.
Lemma E_DataTransmitProtocol_Results : K_DataTransmitProtocol_Results = DataTransmitProtocol_Results. Proof. reflexivity. Qed.
Lemma E_HyteraDmrApplicationProtocol_MessageHeaderTypes : K_HyteraDmrApplicationProtocol_MessageHeaderTypes = HyteraDmrApplicationProtocol_MessageHeaderTypes. Proof. reflexivity. Qed.
Lemma E_HyteraRadioNetworkProtocol_Opcodes : K_HyteraRadioNetworkProtocol_Opcodes = HyteraRadioNetworkProtocol_Opcodes. Proof. reflexivity. Qed.
Lemma E_HyteraSimpleTransportReliabilityProtocol_OptionCommands : K_HyteraSimpleTransportReliabilityProtocol_OptionCommands = HyteraSimpleTransportReliabilityProtocol_OptionCommands. Proof. reflexivity. Qed.
Lemma E_IpSiteConnectProtocol_SlotTypes : K_IpSiteConnectProtocol_SlotTypes = IpSiteConnectProtocol_SlotTypes. Proof. reflexivity. Qed.
Lemma E_IpSiteConnectProtocol_FrameTypes : K_IpSiteConnectProtocol_FrameTypes = IpSiteConnectProtocol_FrameTypes. Proof. reflexivity. Qed.
Lemma E_IpSiteConnectProtocol_PacketTypes : K_IpSiteConnectProtocol_PacketTypes = IpSiteConnectProtocol_PacketTypes. Proof. reflexivity. Qed.
Lemma E_IpSiteConnectProtocol_Timeslots : K_IpSiteConnectProtocol_Timeslots = IpSiteConnectProtocol_Timeslots. Proof. reflexivity. Qed.
Lemma E_IpSiteConnectProtocol_CallTypes : K_IpSiteConnectProtocol_CallTypes = IpSiteConnectProtocol_CallTypes. Proof. reflexivity. Qed.
Lemma E_LocationProtocol_LpGeneralTypes : K_LocationProtocol_LpGeneralTypes = LocationProtocol_LpGeneralTypes. Proof. reflexivity. Qed.
Lemma E_LocationProtocol_LpSpecificTypes : K_LocationProtocol_LpSpecificTypes = LocationProtocol_LpSpecificTypes. Proof. reflexivity. Qed.
Lemma E_LocationProtocol_CmdTypes : K_LocationProtocol_CmdTypes = LocationProtocol_CmdTypes. Proof. reflexivity. Qed.
Lemma E_LocationProtocol_TriggerTypes : K_LocationProtocol_TriggerTypes = LocationProtocol_TriggerTypes. Proof. reflexivity. Qed.
Lemma E_LocationProtocol_ResultCodes : K_LocationProtocol_ResultCodes = LocationProtocol_ResultCodes. Proof. reflexivity. Qed.
Lemma E_RadioControlProtocol_ServiceTypes : K_RadioControlProtocol_ServiceTypes = RadioControlProtocol_ServiceTypes. Proof. reflexivity. Qed.
Lemma E_RadioControlProtocol_CallTypes : K_RadioControlProtocol_CallTypes = RadioControlProtocol_CallTypes. Proof. reflexivity. Qed.
Lemma E_RadioControlProtocol_ReplyResults : K_RadioControlProtocol_ReplyResults = RadioControlProtocol_ReplyResults. Proof. reflexivity. Qed.
Lemma E_RadioRegistrationService_RrsTypes : K_RadioRegistrationService_RrsTypes = RadioRegistrationService_RrsTypes. Proof. reflexivity. Qed.
Lemma E_RealTimeTransportProtocol_RtpPayloadTypes : K_RealTimeTransportProtocol_RtpPayloadTypes = RealTimeTransportProtocol_RtpPayloadTypes. Proof. reflexivity. Qed.
Lemma E_RealTimeTransportProtocol_CallTypes : K_RealTimeTransportProtocol_CallTypes = RealTimeTransportProtocol_CallTypes. Proof. reflexivity. Qed.
Lemma E_TelemetryProtocol_ServiceTypes : K_TelemetryProtocol_ServiceTypes = TelemetryProtocol_ServiceTypes. Proof. reflexivity. Qed.
Lemma E_TelemetryProtocol_ServiceSpecificTypes : K_TelemetryProtocol_ServiceSpecificTypes = TelemetryProtocol_ServiceSpecificTypes. Proof. reflexivity. Qed.
Lemma E_TelemetryProtocol_PcFlagTypes : K_TelemetryProtocol_PcFlagTypes = TelemetryProtocol_PcFlagTypes. Proof. reflexivity. Qed.
Lemma E_TelemetryProtocol_CallTypes : K_TelemetryProtocol_CallTypes = TelemetryProtocol_CallTypes. Proof. reflexivity. Qed.
Lemma E_TelemetryProtocol_ResultTypes : K_TelemetryProtocol_ResultTypes = TelemetryProtocol_ResultTypes. Proof. reflexivity. Qed.
Lemma E_TelemetryProtocol_ControlResultTypes : K_TelemetryProtocol_ControlResultTypes = TelemetryProtocol_ControlResultTypes. Proof. reflexivity. Qed.
Lemma E_TelemetryProtocol_OperationTypes : K_TelemetryProtocol_OperationTypes = TelemetryProtocol_OperationTypes. Proof. reflexivity. Qed.
Lemma E_TextMessageProtocol_AckFlags : K_TextMessageProtocol_AckFlags = TextMessageProtocol_AckFlags. Proof. reflexivity. Qed.
Lemma E_TextMessageProtocol_OptionFlags : K_TextMessageProtocol_OptionFlags = TextMessageProtocol_OptionFlags. Proof. reflexivity. Qed.
Lemma E_TextMessageProtocol_ServiceTypes : K_TextMessageProtocol_ServiceTypes = TextMessageProtocol_ServiceTypes. Proof. reflexivity. Qed.
Lemma E_TextMessageProtocol_ResultCodes : K_TextMessageProtocol_ResultCodes = TextMessageProtocol_ResultCodes. Proof. reflexivity. Qed.
Lemma E_AutomaticRegistrationService_RegistrationEvents : K_AutomaticRegistrationService_RegistrationEvents = AutomaticRegistrationService_RegistrationEvents. Proof. reflexivity. Qed.
Lemma E_AutomaticRegistrationService_FailureReasons : K_AutomaticRegistrationService_FailureReasons = AutomaticRegistrationService_FailureReasons. Proof. reflexivity. Qed.
Lemma E_MotorolaBinaryXml_Docids : K_MotorolaBinaryXml_Docids = MotorolaBinaryXml_Docids. Proof. reflexivity. Qed.
Lemma E_MotorolaBinaryXml_LrrpElements : K_MotorolaBinaryXml_LrrpElements = MotorolaBinaryXml_LrrpElements. Proof. reflexivity. Qed.
Lemma E_MotTextMessageProtocol_TmsServiceCapability : K_MotTextMessageProtocol_TmsServiceCapability = MotTextMessageProtocol_TmsServiceCapability. Proof. reflexivity. Qed.

Ltac names := repeat match goal with
  | |- context [class_name ?p] => let v := eval vm_compute in (class_name p) in change (class_name p) with v
  | |- context [attr_path ?p ?i] => let v := eval vm_compute in (attr_path p i) in change (attr_path p i) with v
  end.
Lemma eq_member_other E a b v : eq_member E a v = true -> String.eqb a b = false -> eq_member E b v = false.
Proof. destruct v; cbn; try discriminate. intros H N. apply andb_prop in H as [-> H]. apply String.eqb_eq in H as ->. rewrite N. reflexivity. Qed.
Lemma eqb_other a b c : (a =? b) = true -> (b =? c) = false -> (a =? c) = false.
Proof. intros H. apply Z.eqb_eq in H as ->. trivial. Qed.
Lemma str_eqb_other x a b : str_eqb x a = true -> zlist_eqb (lit a) (lit b) = false -> str_eqb x b = false.
Proof. unfold str_eqb. intros H. apply zlist_eqb_eq in H as ->. trivial. Qed.
Lemma enum_value_to_i E z : enum_value (resolve_enum E z) = lift (to_i (resolve_enum E z)).
Proof. unfold resolve_enum. destruct (en_find (en_members E) z); reflexivity. Qed.

Definition same {A} (k : K A) (m : M A) : Prop := forall fs s, k fs s = (a <- m;; ret (a, fs)) s.
Lemma times_is body m : same body m -> forall n, same (times body n) (repeat_n n m).
Proof.
  intros H. induction n as [|n IH]; intros fs s; [reflexivity|]. cbn [times repeat_n]. unfold kbind, bind. rewrite (H fs s). unfold bind, ret.
  destruct (m s) as [[v|e] s']; [|reflexivity]. cbn [fst snd]. rewrite (IH fs s'). unfold bind, ret. destruct (repeat_n n m s') as [[l|e] s'']; reflexivity.
Qed.
Lemma until_is body stop m st loop : same body m -> (forall v, same (stop v) (st v)) ->
  (forall s, loop O s = (Err OutOfFuel, s)) -> (forall n s, loop (S n) s = (v <- m;; e <- st v;; if (e : bool) then ret [v] else l <- loop n;; ret (v :: l)) s) ->
  same (turns (until body stop)) (with_fuel loop).
Proof.
  intros H Hs L0 LS fs s. unfold turns, with_fuel, bind. generalize (S (List.length (s_buf s))) as n. intros n. revert fs s.
  induction n as [|n IH]; intros fs s; [rewrite L0; reflexivity|]. cbn [until]. rewrite LS. unfold kbind, bind. rewrite (H fs s). unfold bind, ret.
  destruct (m s) as [[v|e] s']; [|reflexivity]. cbn [fst snd]. rewrite (Hs v fs s'). unfold bind, ret.
  destruct (st v s') as [[b|e] s'']; [|reflexivity]. cbn [fst snd]. destruct b; [reflexivity|]. rewrite (IH fs s''). unfold kret, ret. destruct (loop n s'') as [[l|e] s3]; reflexivity.
Qed.
Lemma until_eof_is rt body m loop : same body m ->
  (forall s, loop O s = (Err OutOfFuel, s)) -> (forall n s, loop (S n) s = (e <- is_eof rt;; if (e : bool) then ret [] else v <- m;; l <- loop n;; ret (v :: l)) s) ->
  same (turns (until_eof rt body)) (with_fuel loop).
Proof.
  intros H L0 LS fs s. unfold turns, with_fuel, bind. generalize (S (List.length (s_buf s))) as n. intros n. revert fs s.
  induction n as [|n IH]; intros fs s; [rewrite L0; reflexivity|]. cbn [until_eof]. rewrite LS. unfold kbind, bind, io, bind, ret.
  destruct (is_eof rt s) as [[b|e] s']; [|reflexivity]. cbn [fst snd]. destruct b; [reflexivity|]. rewrite (H fs s'). unfold bind, ret.
  destruct (m s') as [[v|e] s'']; [|reflexivity]. cbn [fst snd]. rewrite (IH fs s''). unfold kret, ret. destruct (loop n s'') as [[l|e] s3]; reflexivity.
Qed.

Create HintDb ksy discriminated.
#[export] Hint Constants Opaque : ksy.
Ltac kcbn := cbn [run_typ run_attrs run_ty run_rep run_cases eval run_inst].
Ltac kcbv := cbv beta iota zeta delta [kbind kret io get put outer inner present need_int need_bool need_str binary number as_enum for_range is_bits andb negb
   obj seq vbits vint vflag venum vbytes vfull vstr vstr_full aligned read_flag read_u1 read_u2be read_u4be read_u2le read_u4le read_s2be read_str some none when expect_bytes
   bind ret fail fst snd hd tl last removelast firstn app lookup String.eqb Ascii.eqb Bool.eqb option_map opt lift getattr List.app String.append
   needed orb flag_of int_of TextMessageProtocol_option_sum_len TelemetryProtocol_specific_service
   Homebrew2015_fifth_letter Mmdvm2020_fifth_letter MotTextMessageProtocol_custom_pdu_type RealTimeTransportProtocol_len_padding RealTimeTransportProtocol_len_padding_if_exists].
(** what the left side does next *)
Ltac head t := lazymatch t with match ?x with _ => _ end => head x | (match ?x with _ => _ end) _ => head x | (match ?x with _ => _ end) _ _ => head x | _ => t end.
Ltac left_head := lazymatch goal with |- ?l = _ => head l end.
Ltac right_head := lazymatch goal with |- _ = ?r => head r end.
Ltac split_res x := destruct x as [?r|?e]; [kcbv|try reflexivity].
(** one common action of both sides *)
Ltac act x := destruct x as [[?r|?e] ?s]; [kcbv|try reflexivity].
Ltac use H := rewrite ?H; kcbv.
Ltac loop m := fail.
Ltac prim := let h := left_head in lazymatch h with
  | read_bits _ _ => act h | read_bytes _ _ _ => act h | read_bytes_full _ _ => act h | is_eof _ _ => act h
  | align_to_byte _ => act h | io_pos _ => act h | io_size _ => act h | io_seek _ _ _ => act h
  | run_typ ?rt ?t ?fs ?s => let H := fresh in assert (H : reads rt t _) by (eauto with ksy); rewrite (H fs s); clear H; kcbv; let h' := left_head in act h'
  | to_i (VBool ?b) => change (to_i (VBool b)) with (Ok (Z.b2z b)); kcbv
  | to_i ?v => rewrite ?enum_value_to_i; let H := fresh "Q" in first
      [ match goal with H : to_i v = _ |- _ => rewrite ?H; kcbv; try reflexivity end
      | destruct (to_i v) eqn:H; [kcbv|kcbv; try reflexivity] ]
  | py_decode _ _ => split_res h
  | times ?b ?n ?fs ?s => let r := right_head in lazymatch r with repeat_n _ ?m _ =>
      let H := fresh in assert (H : same b m) by (intros ? ?; kcbv; repeat prim; reflexivity); rewrite (times_is b m H n fs s); clear H; kcbv; act r end
  | turns ?l ?fs ?s => let r := right_head in lazymatch r with ?m s =>
      let H := fresh in assert (H : same (turns l) m) by (loop m); rewrite (H fs s); clear H; kcbv; act r end
  | eq_member ?E ?m ?x => first
      [ match goal with H : eq_member E m x = _ |- _ => use H end
      | match goal with H : eq_member E ?m' x = true |- _ => use (eq_member_other E m' m x H eq_refl) end
      | let H := fresh "Q" in destruct h eqn:H; [repeat match goal with |- context [eq_member E ?m' x] => rewrite (eq_member_other E m m' x H eq_refl) end|]; kcbv ]
  | ?a =? ?b => first
      [ match goal with H : (a =? b) = _ |- _ => use H end
      | match goal with H : (a =? ?c) = true |- _ => use (eqb_other a c b H eq_refl) end
      | let H := fresh "Q" in destruct h eqn:H; [repeat match goal with |- context [a =? ?c] => rewrite (eqb_other a b c H eq_refl) end|]; kcbv ]
  | str_eqb ?a ?b => first
      [ match goal with H : str_eqb a b = _ |- _ => use H end
      | match goal with H : str_eqb a ?c = true |- _ => use (str_eqb_other a c b H eq_refl) end
      | let H := fresh "Q" in destruct h eqn:H; [repeat match goal with |- context [str_eqb a ?c] => rewrite (str_eqb_other a b c H eq_refl) end|]; kcbv ]
  | ?b <=? ?a => rewrite ?(Z.geb_leb a b); destruct h; kcbv
  | ?b <? ?a => rewrite ?(Z.gtb_ltb a b); destruct h; kcbv
  | bytes_eqb _ _ => destruct h; kcbv
  | _ => is_var h; destruct h; kcbv
  end.
Ltac same_tac := intros; intros ? ?; kcbv; repeat prim; names; reflexivity.
Ltac loop m ::= lazymatch m with
  | with_fuel (var_payload ?rt) =>
      apply (until_is _ _ (vint (read_u1 rt)) (fun v => match v with VInt x => (if Z.land x 128 =? 0 then ret true else is_eof rt) | _ => fail TypeError end));
      [same_tac|let v := fresh in intros v; destruct v; same_tac|reflexivity|intros; cbn [var_payload]; kcbv; repeat prim; reflexivity]
  | with_fuel (mbxml_documents ?rt) =>
      apply (until_is _ _ (p_MotorolaBinaryXml_MbxmlDocument rt) (fun _ => e <- is_eof rt;; ret (negb e)));
      [same_tac|same_tac|reflexivity|
       intros; cbn [mbxml_documents]; kcbv; match goal with |- context [p_MotorolaBinaryXml_MbxmlDocument ?rt ?s] => act (p_MotorolaBinaryXml_MbxmlDocument rt s) end; repeat prim; reflexivity]
  | with_fuel (hstrp_options ?rt) =>
      apply (until_is _ _ (p_HyteraSimpleTransportReliabilityProtocol_Option rt)
        (fun v => match getattr "expect_more_options" v with Some (VBool b) => ret (negb b) | Some _ => fail TypeError | None => fail (AttributeError "expect_more_options") end));
      [unfold p_HyteraSimpleTransportReliabilityProtocol_Option; same_tac
      |let v := fresh in intros v; intros ? ?; destruct v; try reflexivity; kcbv; let h := left_head in destruct h as [[]|]; reflexivity
      |reflexivity
      |intros; cbn [hstrp_options]; unfold p_HyteraSimpleTransportReliabilityProtocol_Option; kcbv; repeat prim; reflexivity]
  | with_fuel (hstrp_data ?rt) =>
      apply (until_eof_is rt _ (p_HyteraDmrApplicationProtocol rt)); [same_tac|reflexivity|reflexivity]
  end.
Ltac refold rt T := match goal with |- context [?f T] => change (f T) with (run_typ rt T) end.
Ltac ksy := kcbv; repeat prim; symmetry; repeat prim; names; try reflexivity.
