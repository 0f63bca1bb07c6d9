(** Properties of every parser at once: C02 (runtime independence), C03 (termination), C04 (exceptions)
    and C05 (enumerated fields). *)
From Verif Require Import PyBase Runtime Codec CodecSpec Spec RuntimeProofs Enums EnumProofs Getters EtsiModel EtsiSpec HomebrewModel
  HyteraModel MotorolaModel DecSpec DecAlgebra BitSpec Layouts AllParsers AllSpecs.
Open Scope string_scope.
Open Scope list_scope.
Open Scope Z_scope.

(** * C02: both supported stream runtimes give the same result

    [V010] is kaitaistruct 0.10 (byte reads do not touch the bit buffer unless told to), [V011] is 0.11
    (byte reads drop the unread bits first). *)
Theorem C02_same_result_under_both_runtimes : forall (name : string) (p : runtime -> M pyval), In (name, p) all_parsers ->
  forall b : bytes, from_bytes (p V010) b = from_bytes (p V011) b.
Proof. intros name p H b. pose proof (proj1 (Forall_forall _ _) all_good _ H) as [G _]. exact (G V010 V011 b). Qed.

(** A message whose bit fields do not end on a byte boundary before a byte read, so that the runtimes could differ. *)
Example C02_case : In ("HyteraSimpleTransportReliabilityProtocol_Option", p_HyteraSimpleTransportReliabilityProtocol_Option) all_parsers /\
  from_bytes (p_HyteraSimpleTransportReliabilityProtocol_Option V010) (B [131;2;7;8]) =
    Ok (VObj "HyteraSimpleTransportReliabilityProtocol.Option" [("expect_more_options", VBool true);
          ("command", resolve_enum HyteraSimpleTransportReliabilityProtocol_OptionCommands 3); ("len_option_payload", VInt 2); ("option_payload", VBytes (B [7;8]))]).
Proof. split; [cbn [all_parsers In]; tauto|vm_compute; reflexivity]. Qed.
(** The runtimes themselves do differ: reading two bits and then a byte. *)
Example C02_runtimes_differ : exists m : runtime -> M Z,
  from_bytes (m V010) (B [129;7]) = from_bytes (m V011) (B [129;7]) /\
  fst (bind (bind (read_bits 2) (fun _ => m V010)) (fun _ => read_bits 6) (stream_of (B [129;7;9]))) <>
  fst (bind (bind (read_bits 2) (fun _ => m V011)) (fun _ => read_bits 6) (stream_of (B [129;7;9]))).
Proof. exists (fun rt => read_u1 rt). split; vm_compute; [reflexivity|discriminate]. Qed.

(** * C03: termination

    A loop of the code that never ended would exhaust every number of iterations, which the model reports
    as [OutOfFuel].  The budget a loop gets is one iteration per byte of the buffer and one more. *)
Theorem C03_terminates : forall (name : string) (p : runtime -> M pyval), In (name, p) all_parsers ->
  forall (rt : runtime) (b : bytes), from_bytes (p rt) b <> Err OutOfFuel.
Proof.
  intros name p H rt b E. pose proof (proj1 (Forall_forall _ _) all_good _ H) as [_ G]. specialize (G rt b). cbn [snd] in G.
  rewrite E in G. discriminate.
Qed.

(** The budget is not what ends the loops: a loop that ends within its budget gives the same result (and
    leaves the stream in the same state) with every larger one. *)
Definition budget_free {A} (loop : nat -> M A) : Prop :=
  forall (n : nat) (s : stream), fst (loop n s) <> Err OutOfFuel -> forall m : nat, (n <= m)%nat -> loop m s = loop n s.
Theorem C03_budget_is_irrelevant : forall rt : runtime,
  budget_free (hstrp_options rt) /\ budget_free (hstrp_data rt) /\ budget_free (var_payload rt) /\ budget_free (mbxml_documents rt).
Proof.
  intros rt. split; [|split; [|split]]; intros n; induction n as [|n IH]; intros s H m Hm.
  all: try (exfalso; apply H; reflexivity).
  all: destruct m as [|m]; [lia|]; apply le_S_n in Hm.
  - cbn [hstrp_options] in *. unfold bind in *. destruct (p_HyteraSimpleTransportReliabilityProtocol_Option rt s) as [[o|e] s1]; [|reflexivity].
    destruct (getattr "expect_more_options" o) as [[| |[]| | | | |]|]; try reflexivity.
    rewrite (IH s1) with (m := m); [reflexivity| |assumption]. destruct (hstrp_options rt n s1) as [[l|e] s2]; exact H || discriminate.
  - cbn [hstrp_data] in *. unfold bind in *. destruct (is_eof rt s) as [[[]|e] s1]; [reflexivity| |reflexivity].
    destruct (p_HyteraDmrApplicationProtocol rt s1) as [[o|e] s2]; [|reflexivity].
    rewrite (IH s2) with (m := m); [reflexivity| |assumption]. destruct (hstrp_data rt n s2) as [[l|e] s3]; exact H || discriminate.
  - cbn [var_payload] in *. unfold bind in *. destruct (read_u1 rt s) as [[x|e] s1]; [|reflexivity].
    destruct ((if Z.land x 128 =? 0 then ret true else is_eof rt) s1) as [[[]|e] s2]; [reflexivity| |reflexivity].
    rewrite (IH s2) with (m := m); [reflexivity| |assumption]. destruct (var_payload rt n s2) as [[l|e] s3]; exact H || discriminate.
  - cbn [mbxml_documents] in *. unfold bind in *. destruct (p_MotorolaBinaryXml_MbxmlDocument rt s) as [[d|e] s1]; [|reflexivity].
    destruct (is_eof rt s1) as [[[]|e] s2]; [|reflexivity..]. cbn [negb] in *.
    rewrite (IH s2) with (m := m); [reflexivity| |assumption]. destruct (mbxml_documents rt n s2) as [[l|e] s3]; exact H || discriminate.
Qed.
(** Too small a budget would be noticed. *)
Example C03_case : fst (var_payload V010 2 (stream_of (B [128;128;1]))) = Err OutOfFuel /\
  fst (var_payload V010 3 (stream_of (B [128;128;1]))) = Ok [VInt 128; VInt 128; VInt 1] /\
  from_bytes (p_MotorolaBinaryXml_Uintvar V010) (B [128;128;1]) = Ok (VObj "MotorolaBinaryXml.Uintvar" [("payload", VList [VInt 128; VInt 128; VInt 1])]).
Proof. repeat split; vm_compute; reflexivity. Qed.

(** * C04: the exceptions a malformed packet can raise *)
Theorem C04_only_parse_errors : forall (name : string) (p : runtime -> M pyval), In (name, p) all_parsers ->
  forall (rt : runtime) (b : bytes),
    (exists v, from_bytes (p rt) b = Ok v) \/
    from_bytes (p rt) b = Err EOFError \/
    (exists expected actual where_, from_bytes (p rt) b = Err (ValidationNotEqualError expected actual where_)) \/
    (exists encoding, from_bytes (p rt) b = Err (UnicodeDecodeError encoding)) \/
    from_bytes (p rt) b = Err ValueError.
Proof.
  intros name p H rt b. pose proof (proj1 (Forall_forall _ _) all_good _ H) as [_ G]. specialize (G rt b). cbn [snd] in G.
  destruct (from_bytes (p rt) b) as [v|e]; [left; eauto|right]. cbn [sane] in G. destruct e; try discriminate; eauto 10.
Qed.
(** All five outcomes occur. *)
Example C04_cases :
  (exists v, from_bytes (p_RadioRegistrationService V010) (B [0; 0x80; 0; 9; 10; 0; 0; 1; 0; 0; 0; 0; 60; 7]) = Ok v) /\
  from_bytes (p_RadioRegistrationService V010) (B [0; 0x80; 0]) = Err EOFError /\
  (exists e a w, from_bytes (p_RadioRegistrationService V010) (B [9; 0x80; 0]) = Err (ValidationNotEqualError e a w)) /\
  from_bytes (fun s => p_Homebrew2015 V010 s) (B [255;255;255;255;0;0]) = Err (UnicodeDecodeError "utf-8") /\
  from_bytes (p_DataTransmitProtocol V011) (B [9; 1; 0; 9; 10; 0; 0; 1; 10; 0; 0; 2; 1; 0]) = Err ValueError.
Proof.
  split; [eexists; vm_compute; reflexivity|]. split; [vm_compute; reflexivity|].
  split; [do 3 eexists; vm_compute; reflexivity|]. split; vm_compute; reflexivity.
Qed.

(** * C05: enumerated fields *)
Definition all_enums : list enumdef := [
  DmrCsbk_CsbkoTypes;
  DmrCsbk_CsbkDataOrCsbk;
  DmrCsbk_CsbkGroupOrIndividual;
  DmrCsbk_AnswerResponse;
  DmrDataHeader_UdtFormats;
  DmrDataHeader_CsbkMbcUdtOpcodes;
  DmrDataHeader_DataPacketFormats;
  DmrDataHeader_SapIdentifiers;
  DmrDataHeader_DefinedDataFormats;
  DmrDataHeader_ResponsePacketClasses;
  DmrIpUdp_SourceIpAddressIds;
  DmrIpUdp_DestinationIpAddressIds;
  DmrIpUdp_UdpPortIds;
  FullLinkControl_Flcos;
  FullLinkControl_PositionErrors;
  FullLinkControl_TalkerDataFormats;
  FullLinkControl_FeatureSetIds;
  Homebrew2015_Timeslots;
  Homebrew2015_CallTypes;
  Homebrew2015_FrameTypes;
  Mmdvm2020_TalkerAliasTypes;
  Mmdvm2020_FrameTypes;
  Mmdvm2020_CallTypes;
  Mmdvm2020_PositionErrors;
  Mmdvm2020_Timeslots;
  RadioRegistrationService_RrsTypes;
  DataDeliveryStates_StateTypes;
  DataDeliveryStates_Results;
  DataTransmitProtocol_ServiceTypes;
  DataTransmitProtocol_ServiceSpecificTypes;
  DataTransmitProtocol_Results;
  TextMessageProtocol_AckFlags;
  TextMessageProtocol_OptionFlags;
  TextMessageProtocol_ServiceTypes;
  TextMessageProtocol_ResultCodes;
  LocationProtocol_CmdTypes;
  LocationProtocol_LpSpecificTypes;
  LocationProtocol_LpGeneralTypes;
  LocationProtocol_TriggerTypes;
  LocationProtocol_ResultCodes;
  TelemetryProtocol_ServiceTypes;
  TelemetryProtocol_ResultTypes;
  TelemetryProtocol_CallTypes;
  TelemetryProtocol_OperationTypes;
  TelemetryProtocol_PcFlagTypes;
  TelemetryProtocol_ServiceSpecificTypes;
  TelemetryProtocol_ControlResultTypes;
  RadioControlProtocol_ServiceTypes;
  RadioControlProtocol_CallTypes;
  RadioControlProtocol_ReplyResults;
  HyteraDmrApplicationProtocol_MessageHeaderTypes;
  HyteraRadioNetworkProtocol_Opcodes;
  HyteraSimpleTransportReliabilityProtocol_OptionCommands;
  IpSiteConnectProtocol_PacketTypes;
  IpSiteConnectProtocol_FrameTypes;
  IpSiteConnectProtocol_CallTypes;
  IpSiteConnectProtocol_SlotTypes;
  IpSiteConnectProtocol_Timeslots;
  RealTimeTransportProtocol_RtpPayloadTypes;
  RealTimeTransportProtocol_CallTypes;
  AutomaticRegistrationService_RegistrationEvents;
  AutomaticRegistrationService_FailureReasons;
  MotTextMessageProtocol_TmsServiceCapability;
  MotorolaBinaryXml_Docids;
  MotorolaBinaryXml_LrrpElements].

(** The Python enum types: [members] are pairs (value, name); a class statement with two names for one value
    would make the second an alias, and with two values for one name would raise [TypeError]. *)
Theorem C05_no_enum_declares_a_number_or_a_name_twice : forall E, In E all_enums ->
  NoDup (map fst (en_members E)) /\ NoDup (map snd (en_members E)).
Proof.
  assert (Z1 : forall l, nodup_z l = true -> NoDup l).
  { induction l as [|x l IH]; cbn [nodup_z]; intros H; constructor; apply andb_true_iff in H as [H1 H2].
    - intros Hin. apply existsb_z_in in Hin. rewrite Hin in H1. discriminate.
    - auto. }
  assert (S1 : forall l, nodup_s l = true -> NoDup l).
  { induction l as [|x l IH]; cbn [nodup_s]; intros H; constructor; apply andb_true_iff in H as [H1 H2].
    - intros Hin. apply existsb_s_in in Hin. rewrite Hin in H1. discriminate.
    - auto. }
  assert (W : forallb enum_wf all_enums = true) by (vm_compute; reflexivity).
  intros E H. rewrite forallb_forall in W. specialize (W E H). unfold enum_wf in W. apply andb_true_iff in W as [W1 W2]. auto.
Qed.

(** What an enumerated field holds: the member declared for the wire number, else the number. *)
Theorem C05_field_value : forall E, In E all_enums -> forall z : Z,
  (forall n, In (z, n) (en_members E) -> resolve_enum E z = VEnum (en_name E) n z) /\
  ((forall n, ~ In (z, n) (en_members E)) -> resolve_enum E z = VInt z).
Proof.
  intros E HE z. split.
  - intros n Hn. assert (W : forallb enum_wf all_enums = true) by (vm_compute; reflexivity).
    rewrite forallb_forall in W. specialize (W E HE). unfold enum_wf in W. apply andb_true_iff in W as [W1 W2].
    unfold resolve_enum. rewrite (nodup_fst_find _ _ _ W1 Hn). reflexivity.
  - intros Hn. unfold resolve_enum. destruct (en_find (en_members E) z) as [n|] eqn:F; [|reflexivity].
    exfalso. exact (Hn n (en_find_in _ _ _ F)).
Qed.

Theorem C05_wire_number_recoverable : forall E z, enum_wire (resolve_enum E z) = Some z.
Proof. exact resolve_enum_wire. Qed.
Theorem C05_injective : forall E z z', resolve_enum E z = resolve_enum E z' -> z = z'.
Proof. intros E z z' H. pose proof (resolve_enum_wire E z). pose proof (resolve_enum_wire E z'). congruence. Qed.
(** ... even comparing members by name only. *)
Theorem C05_names_distinguish : forall E, In E all_enums -> forall z z' c c' n d d',
  resolve_enum E z = VEnum c n d -> resolve_enum E z' = VEnum c' n d' -> z = z'.
Proof.
  intros E HE z z' c c' n d d' H1 H2. assert (W : forallb enum_wf all_enums = true) by (vm_compute; reflexivity).
  rewrite forallb_forall in W. specialize (W E HE). unfold enum_wf in W. apply andb_true_iff in W as [W1 W2].
  unfold resolve_enum in *. destruct (en_find (en_members E) z) as [m|] eqn:F1; [|discriminate].
  destruct (en_find (en_members E) z') as [m'|] eqn:F2; [|discriminate].
  assert (m = n) by congruence. assert (m' = n) by congruence. subst.
  exact (nodup_snd_inj _ _ _ _ W2 (en_find_in _ _ _ F1) (en_find_in _ _ _ F2)).
Qed.

(** The enumerated fields of the messages with fixed layout use these enums, and such a field holds the
    member (or the number) that belongs to the number the message has at the field's place. *)
Definition enum_eqb (E E' : enumdef) : bool :=
  String.eqb (en_name E) (en_name E') &&
  (fix eqm l l' := match l, l' with
     | [], [] => true
     | (z, n) :: l, (z', n') :: l' => (z =? z') && String.eqb n n' && eqm l l'
     | _, _ => false end) (en_members E) (en_members E').
Lemma enum_eqb_eq E E' : enum_eqb E E' = true -> E = E'.
Proof.
  destruct E as [n l], E' as [n' l']. unfold enum_eqb. cbn [en_name en_members]. intros H. apply andb_true_iff in H as [H1 H2].
  apply String.eqb_eq in H1. subst n'. f_equal. revert l' H2. induction l as [|[z m] l IH]; intros [|[z' m'] l']; try discriminate; [reflexivity|].
  intros H. apply andb_true_iff in H as [H H3]. apply andb_true_iff in H as [H H2]. apply Z.eqb_eq in H. apply String.eqb_eq in H2. subst. f_equal. auto.
Qed.
Definition enum_listed (f : field) : bool := match f_kind f with KEnum E _ => existsb (enum_eqb E) all_enums | _ => true end.
Lemma layouts_enums rt : forallb (fun l => forallb enum_listed (ly_table l) && nodup_s (map f_name (ly_table l))) (fixed_layouts rt) = true.
Proof. vm_compute. reflexivity. Qed.

Lemma fields_keys b k fs : forall a, fields b k fs = Ok a -> map fst a = map f_name fs.
Proof.
  induction fs as [|f fs IH]; cbn [fields map]; intros a H; [assert (a = []) as -> by congruence; reflexivity|].
  destruct (decode b k (f_off f) (f_kind f)); [|discriminate]. destruct (fields b k fs) as [a'|]; [|discriminate].
  assert (a = (f_name f, a0) :: a') as -> by congruence. cbn [map fst]. f_equal. auto.
Qed.
Lemma fields_lookup b k fs : nodup_s (map f_name fs) = true -> forall a f, fields b k fs = Ok a -> In f fs ->
  exists v, decode b k (f_off f) (f_kind f) = Ok v /\ lookup (f_name f) a = Some v.
Proof.
  induction fs as [|g fs IH]; cbn [fields map nodup_s]; intros Hn a f H Hin; [destruct Hin|]. apply andb_true_iff in Hn as [Hn1 Hn2].
  destruct (decode b k (f_off g) (f_kind g)) as [v|] eqn:Hd; [|discriminate]. destruct (fields b k fs) as [a'|] eqn:Hf; [|discriminate].
  assert (a = (f_name g, v) :: a') as -> by congruence. cbn [lookup]. destruct Hin as [<-|Hin].
  - rewrite String.eqb_refl. eauto.
  - destruct (IH Hn2 a' f eq_refl Hin) as [w [Hw1 Hw2]]. exists w. split; [exact Hw1|].
    destruct (String.eqb_spec (f_name f) (f_name g)) as [E|]; [|exact Hw2]. exfalso.
    assert (existsb (String.eqb (f_name g)) (map f_name fs) = true); [|now rewrite H0 in Hn1].
    apply existsb_s_in. rewrite <- E. now apply in_map.
Qed.

Theorem C05_enumerated_fields : forall rt (l : layout), In l (fixed_layouts rt) -> forall n o E f, In (F n o (KEnum E f)) (ly_table l) ->
  In E all_enums /\
  forall (b : bytes) a, from_bytes (ly_parser l) b = Ok (VObj (ly_class l) a) ->
    lookup n a = Some (resolve_enum E (num b 0 o f)).
Proof.
  intros rt l Hl n o E f Hin. pose proof (layouts_enums rt) as H. rewrite forallb_forall in H. specialize (H l Hl).
  apply andb_true_iff in H as [H1 H2]. split.
  - rewrite forallb_forall in H1. specialize (H1 _ Hin). unfold enum_listed in H1. cbn [f_kind] in H1. apply existsb_exists in H1 as [E' [H3 H4]].
    apply enum_eqb_eq in H4. now subst.
  - intros b a Hp. pose proof (proj1 (Forall_forall _ _) (layouts_ok rt) l Hl) as [G _]. rewrite G in Hp. unfold object in Hp.
    destruct (fields b 0 (ly_table l)) as [a'|] eqn:Hf; [|discriminate]. assert (a' = a) as -> by (cbn [rmap] in Hp; congruence).
    destruct (fields_lookup b 0 _ H2 a _ Hf Hin) as [v [Hv1 Hv2]]. cbn [f_name f_off f_kind] in *. rewrite Hv2. f_equal.
    unfold decode in Hv1. destruct (fits b 0 _); [|discriminate]. congruence.
Qed.

(** Declared and undeclared numbers. *)
Example C05_case : In DmrCsbk_CsbkoTypes all_enums /\ resolve_enum DmrCsbk_CsbkoTypes 61 = VEnum "DmrCsbk.CsbkoTypes" "preamble" 61 /\
  resolve_enum DmrCsbk_CsbkoTypes 62 = VInt 62.
Proof. split; [cbn [all_enums In]; tauto|]. split; reflexivity. Qed.

Print Assumptions C02_same_result_under_both_runtimes.
Print Assumptions C03_terminates.
Print Assumptions C03_budget_is_irrelevant.
Print Assumptions C04_only_parse_errors.
Print Assumptions C05_no_enum_declares_a_number_or_a_name_twice.
Print Assumptions C05_field_value.
Print Assumptions C05_wire_number_recoverable.
Print Assumptions C05_injective.
Print Assumptions C05_names_distinguish.
Print Assumptions C05_enumerated_fields.
