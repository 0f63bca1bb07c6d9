(** C64: the object made of a packet is at most linearly bigger than the packet, and its nesting is bounded.

    Specification: [size] (KsySize.v) counts every number, text, byte string, list and object in a value, and every
    byte and character; [depth] below counts how deep lists and objects are nested.  The theorems are about the
    parsers of the model (Runtime.v, AllParsers.v); the definitions of KsyDefs.v are used in the proofs only. *)
From Verif Require Import PyBase Runtime Codec RuntimeProofs Spec AllParsers Ksy KsyDefs KsySchema KsyTyped KsySize SizeProofs SizeMain PropKsy PropSchema.
From Verif Require Import Enums EtsiModel HyteraModel MotorolaModel RepoTests.
Open Scope string_scope.
Open Scope list_scope.
Open Scope Z_scope.

(** ** The bounds: class, size per byte of input, constant *)
Definition bounds : list (string * Z * Z) := [
  ("DmrCsbk_NegativeAckResponseData", 0, 7); ("DmrCsbk_ServiceOptions", 0, 7); ("DmrCsbk_UnitToUnitVoiceRequestData", 0, 11);
  ("DmrCsbk_PreambleData", 0, 7); ("DmrCsbk_ChannelTimingData", 0, 11); ("DmrCsbk_BsOutboundActivationData", 0, 4);
  ("DmrCsbk_UnitToUnitVoiceAnswerData", 0, 11); ("DmrCsbk", 0, 16); ("DmrData_Rate1LastBlockUnconfirmed", 1, 3);
  ("DmrData_Rate12LastBlockConfirmed", 1, 5); ("DmrData_Rate12Confirmed", 1, 4); ("DmrData_Rate34LastBlockUnconfirmed", 1, 3);
  ("DmrData_Rate1LastBlockConfirmed", 1, 5); ("DmrData_Rate1Unconfirmed", 1, 2); ("DmrData_UdtLastBlock", 1, 3); ("DmrData_Rate34Confirmed", 1, 4);
  ("DmrData_Rate34LastBlockConfirmed", 1, 5); ("DmrData_Rate34Unconfirmed", 1, 2); ("DmrData_Rate12LastBlockUnconfirmed", 1, 3);
  ("DmrData_Rate1Confirmed", 1, 4); ("DmrData_Rate12Unconfirmed", 1, 2); ("DmrData", 0, 1); ("DmrDataHeader_DataHeaderShortRaw", 1, 15);
  ("DmrDataHeader_DataHeaderProprietary", 1, 6); ("DmrDataHeader_DataHeaderUndefined", 1, 2); ("DmrDataHeader_DataHeaderShortStatusPrecoded", 1, 13);
  ("DmrDataHeader_DataHeaderResponse", 1, 15); ("DmrDataHeader_DataHeaderConfirmed", 1, 16); ("DmrDataHeader_DataHeaderUnconfirmed", 1, 15);
  ("DmrDataHeader_DataHeaderShortDefined", 1, 14); ("DmrDataHeader_DataHeaderUdt", 1, 16); ("DmrDataHeader", 0, 3);
  ("DmrIpUdp_UdpIpv4CompressedHeader", 1, 11); ("DmrIpUdp", 0, 1); ("FullLinkControl_GpsInfoLcPdu", 0, 5);
  ("FullLinkControl_GroupVoiceChannelUser", 0, 4); ("FullLinkControl_UnitToUnitVoiceChannelUser", 0, 4); ("FullLinkControl_TalkerAliasHeader", 0, 4);
  ("FullLinkControl_TalkerAliasContinuation", 0, 2); ("FullLinkControl", 1, 12); ("Homebrew2015_TypeMasterPing", 1, 3);
  ("Homebrew2015_TypeRepeaterPong", 1, 3); ("Homebrew2015_TypeRepeaterLoginResponse", 1, 3); ("Homebrew2015_TypeRepeaterLoginRequest", 0, 2);
  ("Homebrew2015_TypeMasterNotAccept", 1, 3); ("Homebrew2015_TypeMasterRepeaterAck", 1, 4); ("Homebrew2015_TypeMasterClosing", 1, 3);
  ("Homebrew2015_TypeDmrData", 1, 13); ("Homebrew2015_TypeRepeaterOptions", 1, 3); ("Homebrew2015_TypeRepeaterClosing", 1, 3);
  ("Homebrew2015_TypeRepeaterConfiguration", 1, 16); ("Homebrew2015", 1, 21); ("Mmdvm2020_TypeMasterPong", 1, 3);
  ("Mmdvm2020_TypeRadioPosition", 0, 6); ("Mmdvm2020_TypeTalkerAlias", 1, 4); ("Mmdvm2020_TypeRepeaterLoginResponse", 1, 3);
  ("Mmdvm2020_TypeRepeaterLoginRequest", 0, 2); ("Mmdvm2020_TypeMasterNotAccept", 1, 3); ("Mmdvm2020_TypeUnknown", 1, 2);
  ("Mmdvm2020_TypeMasterRepeaterAck", 1, 3); ("Mmdvm2020_TypeMasterClosing", 1, 3); ("Mmdvm2020_TypeDmrData", 1, 13);
  ("Mmdvm2020_TypeRepeaterBeacon", 0, 1); ("Mmdvm2020_TypeRepeaterOptions", 1, 3); ("Mmdvm2020_TypeRepeaterClosing", 1, 3);
  ("Mmdvm2020_TypeRepeaterConfiguration", 1, 17); ("Mmdvm2020_TypeRepeaterPing", 1, 3); ("Mmdvm2020", 1, 22); ("RadioIp", 0, 5); ("RadioId", 0, 2);
  ("Datetimestring", 1, 2); ("Intervalstring", 1, 2); ("Gpsdata", 1, 10); ("RadioRegistrationService", 1, 11); ("DataDeliveryStates", 1, 11);
  ("DataTransmitProtocol_LastDataSlice", 0, 11); ("DataTransmitProtocol_DataSliceAnswer", 0, 13);
  ("DataTransmitProtocol_LastDataSliceAnswer", 0, 12); ("DataTransmitProtocol_DtpAnswer", 0, 12); ("DataTransmitProtocol", 1, 17);
  ("TextMessageProtocol", 1, 23); ("LocationProtocol_TriggeredReportStopAnswer", 0, 8); ("LocationProtocol_ConditionReportRequest", 1, 17);
  ("LocationProtocol_QuickGpsPayload", 1, 10); ("LocationProtocol_ConditionQuickGpsRequest", 1, 18); ("LocationProtocol_ConditionReport", 1, 17);
  ("LocationProtocol_EmergencyReport", 1, 17); ("LocationProtocol_TriggeredReportAnswer", 0, 8); ("LocationProtocol_StandardAnswerWithRssi", 1, 19);
  ("LocationProtocol_StandardRequest", 0, 7); ("LocationProtocol_TriggeredReportRequest", 1, 13); ("LocationProtocol_StandardAnswer", 1, 18);
  ("LocationProtocol_ConditionReportAnswer", 0, 9); ("LocationProtocol_EmergencyReportStopRequest", 0, 7);
  ("LocationProtocol_ConditionQuickGpsAnswer", 0, 9); ("LocationProtocol_TriggeredReport", 1, 19);
  ("LocationProtocol_ConditionReportWithRssi", 1, 19); ("LocationProtocol_EmergencyReportStopAnswer", 0, 8);
  ("LocationProtocol_TriggeredReportStopRequest", 0, 7); ("LocationProtocol", 1, 22); ("TelemetryProtocol_StandardStatusReport", 1, 15);
  ("TelemetryProtocol_VioExtendedStatus", 1, 4); ("TelemetryProtocol_RemoteControlAnswer", 1, 15); ("TelemetryProtocol_RemoteControlRequest", 1, 15);
  ("TelemetryProtocol_ExtendedStatusReport", 1, 18); ("TelemetryProtocol_StandardStatusRequest", 1, 14); ("TelemetryProtocol", 1, 24);
  ("RadioControlProtocol_BroadcastStatusConfigurationReply", 0, 2); ("RadioControlProtocol_BroadcastConfiguration", 0, 3);
  ("RadioControlProtocol_BroadcastStatusConfigurationRequest", 2, 3); ("RadioControlProtocol_CallRequest", 0, 3);
  ("RadioControlProtocol_RemoveRadioReply", 0, 2); ("RadioControlProtocol_RemoveRadioRequest", 0, 1); ("RadioControlProtocol_CallReply", 0, 2);
  ("RadioControlProtocol", 2, 7); ("HyteraDmrApplicationProtocol_UndefinedProtocol", 1, 2); ("HyteraDmrApplicationProtocol", 2, 29);
  ("HyteraRadioNetworkProtocol", 2, 39); ("HyteraSimpleTransportReliabilityProtocol_Option", 1, 5);
  ("HyteraSimpleTransportReliabilityProtocol", 12, 14); ("IpSiteConnectProtocol", 1, 19); ("IpSiteConnectHeartbeat_Keepalive", 1, 2);
  ("IpSiteConnectHeartbeat_PingPong", 1, 6); ("IpSiteConnectHeartbeat_Unknown", 1, 2); ("IpSiteConnectHeartbeat", 1, 7);
  ("RealTimeTransportProtocol_FixedHeader", 1, 11); ("RealTimeTransportProtocol_HeaderExtension", 1, 11); ("RealTimeTransportProtocol", 1, 33);
  ("AutomaticRegistrationService_DeviceRegistrationMessageHeader", 0, 4); ("AutomaticRegistrationService_MessageHeaderBits", 0, 6);
  ("AutomaticRegistrationService_DeviceDeregistrationMessage", 0, 1);
  ("AutomaticRegistrationService_DeviceRegistrationAcknowledgementFailureReason", 0, 3);
  ("AutomaticRegistrationService_DeviceRegistrationAcknowledgementHeader", 0, 3); ("AutomaticRegistrationService_ArsQueryMessage", 0, 1);
  ("AutomaticRegistrationService", 1, 20); ("MotTextMessageProtocol_TextMessageHeaderSequenceAndEncoding", 0, 7);
  ("MotTextMessageProtocol_TmsServiceAvailabilityHeader", 0, 4); ("MotTextMessageProtocol_MessageHeaderBits", 0, 6);
  ("MotTextMessageProtocol_TmsAcknowledgementHeaderSequenceNumber", 0, 7); ("MotTextMessageProtocol_TmsServiceAvailabilityAcknowledgement", 0, 1);
  ("MotTextMessageProtocol", 1, 22); ("MotorolaBinaryXml_OpaqueElementValue", 1, 3); ("MotorolaBinaryXml_Opaque1byteValue", 1, 2);
  ("MotorolaBinaryXml_Opaque2byteValue", 1, 2); ("MotorolaBinaryXml_Opaque3byteValue", 1, 2); ("MotorolaBinaryXml_Opaque4byteValue", 1, 2);
  ("MotorolaBinaryXml_Opaque5byteValue", 1, 2); ("MotorolaBinaryXml_Uintvar", 1, 2); ("MotorolaBinaryXml_Sintvar", 1, 2);
  ("MotorolaBinaryXml_ConstantDataTableReference", 1, 3); ("MotorolaBinaryXml_LrrpElement", 1, 5);
  ("MotorolaBinaryXml_LrrpImmediateRequestNcdt", 1, 6); ("MotorolaBinaryXml_Sfloatvar", 1, 5); ("MotorolaBinaryXml_Ufloatvar", 1, 5);
  ("MotorolaBinaryXml_MbxmlDocument", 1, 10); ("MotorolaBinaryXml", 6, 2)].
Lemma bounds_are_right : forall name a c, In (name, a, c) bounds -> exists T, In (name, T) definitions /\ typ_ok T = true /\ per_bit (typ_cost T) = a /\ fixed (typ_cost T) = 8 * c.
Proof.
  assert (E : map (fun d => let k := typ_cost (snd d) in (fst d, per_bit k, fixed k / 8, fixed k mod 8, typ_ok (snd d))) definitions = map (fun x => (x, 0, true)) bounds) by (vm_compute; reflexivity).
  intros name a c H. apply (in_map (fun x => (x, 0, true))) in H. rewrite <- E in H. apply in_map_iff in H as [[n T] [H I]]. cbn [fst snd] in H.
  assert (n = name /\ per_bit (typ_cost T) = a /\ fixed (typ_cost T) / 8 = c /\ fixed (typ_cost T) mod 8 = 0 /\ typ_ok T = true) as [-> [H1 [H2 [H3 H4]]]] by (repeat split; congruence).
  exists T. split; [exact I|]. split; [exact H4|]. split; [exact H1|]. pose proof (Z.div_mod (fixed (typ_cost T)) 8 ltac:(lia)). lia.
Qed.

Lemma read_size rt T b v : typ_ok T = true -> from_bytes (ksy_read rt T) b = Ok v -> 8 * size v <= per_bit (typ_cost T) * (8 * blen b) + fixed (typ_cost T).
Proof.
  intros O H. destruct (all_sizes rt) as [_ [_ [_ [_ [_ [_ [_ A]]]]]]]. destruct (A T O) as [[N1 _] B]. unfold from_bytes, ksy_read, bind in H.
  destruct (good_init b) as [G T0]. assert (C0 : caches_small []) by (intros ? []). specialize (B [] (stream_of b) G C0). destruct (run_typ rt T [] (stream_of b)) as [[[w f]|e] s]; cbn in H; [|discriminate]. injection H as <-.
  destruct B as [P1 [P2 [P3 [P4 [P5 [P6 P7]]]]]]. pose proof (taken_le s P1) as TL. rewrite P2 in TL. cbn [stream_of s_buf] in TL. rewrite T0 in *. pose proof (fsize_nonneg f). change (fsize []) with 0 in P6. nia.
Qed.

(** Every class, every packet it accepts: the object is at most [a] per byte of the packet plus [c] big. *)
Theorem C64_class_bounds : forall name a c, In (name, a, c) bounds -> forall p, In (name, p) all_parsers ->
  forall rt b v, from_bytes (p rt) b = Ok v -> size v <= a * blen b + c.
Proof.
  intros name a c H p Hp rt b v F. destruct (bounds_are_right name a c H) as [T [HT [O [HA HC]]]]. destruct (C54_from_bytes name p Hp) as [T' [HT' E]].
  assert (T' = T) as -> by exact (nodup_unique _ nodup_names _ _ _ HT' HT). rewrite <- E in F. pose proof (read_size rt T b v O F). nia.
Qed.
(** No class is missing in the table. *)
Theorem C64_every_class : map fst all_parsers = map (fun x => fst (fst x)) bounds.
Proof. vm_compute. reflexivity. Qed.

(** A packet of n bytes never makes an object bigger than 12 n + 39. *)
Theorem C64_linear : forall name p, In (name, p) all_parsers -> forall rt b v, from_bytes (p rt) b = Ok v -> size v <= 12 * blen b + 39.
Proof.
  intros name p Hp rt b v F. pose proof (in_map fst _ _ Hp) as I. rewrite C64_every_class in I. apply in_map_iff in I as [[[n a] c] [E I]]. cbn [fst] in E. subst n.
  pose proof (C64_class_bounds name a c I p Hp rt b v F).
  assert (Q : forallb (fun x => let '(_, a, c) := x in (a <=? 12) && (c <=? 39)) bounds = true) by (vm_compute; reflexivity). rewrite forallb_forall in Q. specialize (Q _ I). cbn in Q. apply andb_true_iff in Q as [Q1 Q2]. apply Z.leb_le in Q1, Q2.
  unfold blen in *. nia.
Qed.

(** ** Nesting *)
(** How deep lists and objects are nested (without the caches of properties). *)
Fixpoint depth (v : pyval) : nat :=
  match v with
  | VList l => S (fold_right (fun w n => Nat.max (depth w) n) 0%nat l)
  | VObj _ a => S (fold_right (fun nw n => if is_cache (fst nw) then n else Nat.max (depth (snd nw)) n) 0%nat a)
  | _ => 0%nat
  end.
Fixpoint ty_depth (t : ty) : nat :=
  match t with TValid t _ => ty_depth t | TImported t | TLocal t => typ_depth t | TSized _ t => ty_depth t | TSwitch _ cs => cases_depth cs | _ => 0 end
with cases_depth (cs : cases) : nat :=
  match cs with CNil => 0 | CDefault t => ty_depth t | CCons _ t cs => Nat.max (ty_depth t) (cases_depth cs) end
with seq_depth (q : attr_list) : nat :=
  match q with Nil => 0 | Attr _ _ r _ t q => Nat.max (match r with Once => 0 | _ => 1 end + ty_depth t) (seq_depth q) end
with typ_depth (t : typ) : nat := match t with Typ _ q => S (seq_depth q) end.
Definition adepth (a : attrs) : nat := fold_right (fun nw n => Nat.max (depth (snd nw)) n) 0%nat a.
Definition ldepth (l : list pyval) : nat := fold_right (fun w n => Nat.max (depth w) n) 0%nat l.
Lemma adepth_public a : fold_right (fun nw n => if is_cache (fst nw) then n else Nat.max (depth (snd nw)) n) 0%nat a = adepth (public a).
Proof. induction a as [|[n v] a IH]; [reflexivity|]. cbn [fold_right fst snd]. unfold public. cbn [filter fst]. destruct (is_cache n); cbn [negb]; [exact IH|]. cbn [adepth fold_right snd]. fold (adepth (filter (fun nv => negb (is_cache (fst nv))) a)). fold (public a). now rewrite IH. Qed.
Lemma number_flat en lo hi v : number_or_member en lo hi v -> depth v = 0%nat.
Proof. destruct en as [E|]; cbn [number_or_member]; [intros [[m [z [-> _]]]|[z [-> _]]]|intros [z [-> _]]]; reflexivity. Qed.
Lemma object_depth T v : object_of T v -> (depth v <= typ_depth T)%nat.
Proof.
  intros H.
  refine (object_of_m
    (fun en t v _ => (depth v <= ty_depth t)%nat) (fun en cs v _ => (depth v <= cases_depth cs)%nat)
    (fun r en t v _ => (depth v <= match r with Once => 0 | _ => 1 end + ty_depth t)%nat) (fun en t l _ => (ldepth l <= ty_depth t)%nat)
    (fun q a _ => (adepth a <= seq_depth q)%nat) (fun t v _ => (depth v <= typ_depth t)%nat) _ _ _ _ _ _ _ _ _ _ _ _ _ _ _ _ _ _ _ _ _ _ _ _ T v H); intros.
  all: try (erewrite number_flat by eassumption; apply Nat.le_0_l).
  all: try (cbn [depth]; apply Nat.le_0_l).
  all: try assumption.
  - cbn [cases_depth]. lia.
  - cbn [cases_depth]. lia.
  - cbn [depth]. fold (ldepth l). destruct r; [congruence|lia..].
  - cbn [ldepth fold_right]. fold (ldepth l). lia.
  - cbn [adepth fold_right snd seq_depth]. fold (adepth a). apply Nat.max_le_compat; assumption.
  - cbn [seq_depth]. lia.
  - cbn [depth typ_depth]. rewrite adepth_public. lia.
Qed.
Theorem C64_depth : forall name p, In (name, p) all_parsers -> forall rt b v, from_bytes (p rt) b = Ok v -> (depth v <= 8)%nat.
Proof.
  intros name p Hp rt b v F. destruct (C54_from_bytes name p Hp) as [T [HT _]]. pose proof (object_depth _ _ (C58_objects_conform _ _ _ HT Hp rt b v F)) as D.
  assert (Q : forallb (fun d => Nat.leb (typ_depth (snd d)) 8) definitions = true) by (vm_compute; reflexivity). rewrite forallb_forall in Q. specialize (Q _ HT). cbn [snd] in Q. apply Nat.leb_le in Q. lia.
Qed.

(** ** Cases: packets of /repo's tests.  The object can be bigger than the packet, by a factor and by a constant. *)
Example C64_case : let b := "32420020000183040001869f0401010900a2000d30000002000000640001869f00c703" in forall rt,
  exists v, parse (p_HyteraSimpleTransportReliabilityProtocol rt) b = Ok v /\ size v = 54 /\ 54 <= 12 * 35 + 14 /\ depth v = 5%nat.
Proof. intros b [|]; eexists; (split; [vm_compute; reflexivity|]); vm_compute; repeat split; intros X; discriminate X. Qed.
Example C64_case_mbxml : forall rt, exists v, parse (p_MotorolaBinaryXml rt) "050822042468ace05162" = Ok v /\ size v = 17 /\ 17 <= 6 * 10 + 2 /\ depth v = 6%nat.
Proof. intros [|]; eexists; (split; [vm_compute; reflexivity|]); vm_compute; repeat split; intros X; discriminate X. Qed.
(** one byte, six bit fields: the constant is needed, and is exact here *)
Example C64_case_service_options : exists v, parse p_DmrCsbk_ServiceOptions "a5" = Ok v /\ size v = 0 * 1 + 7 /\ In ("DmrCsbk_ServiceOptions", 0, 7) bounds.
Proof. eexists. split; [vm_compute; reflexivity|]. split; [vm_compute; reflexivity|]. apply (nth_error_In bounds 1); reflexivity. Qed.

Definition C64_all := (C64_class_bounds, C64_every_class, C64_linear, C64_depth).
Print Assumptions C64_all.
