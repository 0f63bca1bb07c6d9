(** * C55: the properties evaluated while a message is read stay what they were.

    [specific_service] (Hytera telemetry), [option_sum_len] (Hytera text message), [len_padding] and
    [len_padding_if_exists] (RTP) and [custom_pdu_type] (Motorola text message) steer the reading of the
    message that defines them.  Read afterwards, in any order, any number of times and whatever the user
    does to the stream position in between, they give the value read from the packet and do not move the
    stream. *)
From Coq Require Import ZifyBool Lia.
From Verif Require Import PyBase Runtime Codec Enums EnumProofs Spec DecSpec RuntimeProofs Getters GetterProofs HyteraModel MotorolaModel HyteraProofs2 HyteraCor2 LazyModel PropHytera1 PropHytera2 PropHytera3 MotorolaSpec MotorolaProofs PropMotorola1.
Open Scope string_scope.
Open Scope list_scope.
Open Scope Z_scope.

(** what every access of every history shows *)
Definition always (r : string -> res pyval) (l : list observation) : Prop :=
  Forall (fun ob => ob_result ob = r (ob_name ob) /\ (forall v, ob_result ob = Ok v -> ob_after ob = ob_before ob)) l.

Lemma frozen rt x compute ops o v : lookup ("_m_" ++ x) (l_attrs o) = Some v -> always (fun _ => Ok v) (history rt (fun _ => memo x compute) ops o).
Proof.
  revert o. induction ops as [|[y|n] ops IH]; intros o H; cbn [history]; [constructor| |apply IH, H].
  unfold memo at 1. rewrite H. constructor; [split; reflexivity|apply IH, H].
Qed.

Theorem C55_telemetry_specific_service : forall rt b o ops, open_object (p_TelemetryProtocol rt) b = Ok o ->
  always (fun _ => Ok (resolve_enum TelemetryProtocol_ServiceSpecificTypes (ubits b 0 16))) (history rt (fun _ => TelemetryProtocol_specific_service_property rt) ops o).
Proof.
  intros rt b o ops H. unfold TelemetryProtocol_specific_service_property. apply frozen. apply open_from in H as [cls H]. rewrite C29_telemetry_decoding in H. unfold stand_alone, HyteraSpec.tp_intended, HyteraSpec.tp_selected_at in H. change (8 * 0) with 0 in H. cbv zeta in H.
  destruct (fields b 0 HyteraSpec.L_TelemetryProtocol) as [h|] eqn:Hh; [|discriminate]. cbn [rbind rmap] in H.
  destruct (part "data" _ b _) as [d|]; [|discriminate]. cbn [rbind rmap fst snd] in H.
  assert (l_attrs o = h ++ [("_m_specific_service", resolve_enum TelemetryProtocol_ServiceSpecificTypes (ubits b 0 16))] ++ fst d) as -> by congruence.
  unfold HyteraSpec.L_TelemetryProtocol in Hh. revert Hh. spec_cbn. destruct (fits b 0 8); [|discriminate]. destruct (fits b 0 16); [|discriminate]. destruct (fits b 0 32); [|discriminate]. cbn [rmap rbind]. intros Hh.
  match type of Hh with Ok ?l = _ => assert (h = l) as -> by congruence end. reflexivity.
Qed.

Theorem C55_rtp_len_padding : forall rt b o ops, open_object (p_RealTimeTransportProtocol rt) b = Ok o ->
  always (fun x => if String.eqb x "len_padding" then Ok (VInt (if bit b 2 then ubits b (8 * (blen b - 1)) 8 else 0))
                   else Ok (if bit b 2 then VInt (ubits b (8 * (blen b - 1)) 8) else VNone))
    (history rt (fun x => if String.eqb x "len_padding" then RealTimeTransportProtocol_len_padding_property rt
                          else RealTimeTransportProtocol_len_padding_if_exists_property rt) ops o).
Proof.
  intros rt b o ops H. apply open_from in H as [cls H]. rewrite C38_rtp_decoding in H. cbv zeta in H.
  destruct (blen b <? 1); [discriminate|]. destruct (negb _); [discriminate|]. destruct (blen b <? _); [discriminate|]. destruct (blen b <? _); [discriminate|].
  assert (L1 : lookup "_m_len_padding" (l_attrs o) = Some (VInt (if bit b 2 then ubits b (8 * (blen b - 1)) 8 else 0))).
  { match type of H with Ok (VObj _ ?a) = _ => assert (l_attrs o = a) as -> by congruence end. destruct (bit b 3), (bit b 2); reflexivity. }
  assert (L2 : lookup "_m_len_padding_if_exists" (l_attrs o) = if bit b 2 then Some (VInt (ubits b (8 * (blen b - 1)) 8)) else None).
  { match type of H with Ok (VObj _ ?a) = _ => assert (l_attrs o = a) as -> by congruence end. destruct (bit b 3), (bit b 2); reflexivity. }
  assert (L3 : exists h, lookup "fixed_header" (l_attrs o) = Some h /\ getattr "padding" h = Some (VBool (bit b 2))).
  { match type of H with Ok (VObj _ ?a) = _ => assert (l_attrs o = a) as -> by congruence end. eexists. split; reflexivity. }
  clear H. revert o L1 L2 L3. induction ops as [|[y|n] ops IH]; intros o L1 L2 L3; cbn [history]; [constructor| |apply IH; assumption].
  destruct (String.eqb y "len_padding") eqn:Y.
  - unfold RealTimeTransportProtocol_len_padding_property at 1. rewrite L1. constructor; [|apply IH; assumption]. cbn [ob_name ob_result ob_after ob_before]. rewrite Y. split; reflexivity.
  - unfold RealTimeTransportProtocol_len_padding_if_exists_property at 1. rewrite L2. destruct (bit b 2) eqn:P.
    + constructor; [|apply IH; assumption]. cbn [ob_name ob_result ob_after ob_before]. rewrite Y. split; reflexivity.
    + destruct L3 as [h [L3 L4]]. unfold stored, attribute, bind. rewrite L3. cbv beta iota delta [ret]. rewrite L4. cbv beta iota delta [ret truth].
      constructor; [|apply IH; [assumption..|exists h; auto]]. cbn [ob_name ob_result ob_after ob_before]. rewrite Y. split; reflexivity.
Qed.

Theorem C55_custom_pdu_type : forall rt b o ops, open_object (p_MotTextMessageProtocol rt) b = Ok o ->
  always (fun _ => Ok (VInt (content_type b))) (history rt (fun _ => MotTextMessageProtocol_custom_pdu_type_property) ops o).
Proof.
  intros rt b o ops H. apply frozen. apply open_from in H as [cls H]. apply C40_custom_pdu_type in H as [H _]. exact H.
Qed.

Theorem C55_option_sum_len : forall rt b o ops, open_object (p_TextMessageProtocol rt) b = Ok o ->
  always (fun _ => Ok (VInt (if bit b 1 then ubits b 32 16 + 2 else 0))) (history rt (fun _ => TextMessageProtocol_option_sum_len_property) ops o).
Proof.
  intros rt b o ops H. apply open_from in H as [cls H]. rewrite C26_text_message in H. cbv zeta in H.
  destruct (_ || _)%bool; [discriminate|].
  match type of H with rbind ?x _ = _ => destruct x as [t|] eqn:Ht; [|discriminate] end. cbn [rbind] in H.
  match type of H with rbind ?x _ = _ => destruct x as [f|] eqn:Hf; [|discriminate] end. cbn [rbind] in H.
  match type of H with Ok (VObj _ ?a) = _ => assert (Ha : l_attrs o = a) by congruence end. clear H.
  assert (Hf' : lookup "_m_option_sum_len" f = None).
  { destruct (bit b 1); [|assert (f = []) as -> by congruence; reflexivity]. match type of Hf with rbind ?u _ = _ => destruct u as [x|]; [|discriminate] end. cbn [rbind] in Hf. assert (f = [("option_field", x)]) as -> by congruence. reflexivity. }
  assert (K : lookup "_m_option_sum_len" (l_attrs o) = Some (VInt (if bit b 1 then ubits b 32 16 + 2 else 0)) \/
     lookup "_m_option_sum_len" (l_attrs o) = None /\ lookup "option_flag" (l_attrs o) = Some (resolve_enum TextMessageProtocol_OptionFlags (ubits b 1 1)) /\
     (bit b 1 = true -> lookup "option_field_len" (l_attrs o) = Some (VInt (ubits b 32 16)))).
  { rewrite Ha. clear Ha. destruct ((ubits b 8 8 =? 161) || (ubits b 8 8 =? 177))%bool.
    - left. match type of Ht with rbind ?u _ = _ => destruct u as [x|]; [|discriminate] end. cbn [rbind] in Ht. assert (t = [("_m_option_sum_len", VInt (if bit b 1 then ubits b 32 16 + 2 else 0)); ("tmdata", x)]) as -> by congruence. clear Ht Hf.
      repeat rewrite lookup_app. destruct (bit b 1), (ubits b 8 8 =? 162), (ubits b 8 8 =? 178); reflexivity.
    - right. assert (t = []) as -> by congruence. repeat rewrite lookup_app. rewrite Hf'. destruct (bit b 1), (ubits b 8 8 =? 162), (ubits b 8 8 =? 178); repeat split; intros; try discriminate; reflexivity. }
  destruct K as [K|[K1 [K2 K3]]]; [apply frozen; exact K|]. clear Ha Hf' Hf Ht.
  assert (F : forall o', (lookup "_m_option_sum_len" (l_attrs o') = Some (VInt (if bit b 1 then ubits b 32 16 + 2 else 0)) \/ l_attrs o' = l_attrs o) -> always (fun _ => Ok (VInt (if bit b 1 then ubits b 32 16 + 2 else 0))) (history rt (fun _ => TextMessageProtocol_option_sum_len_property) ops o')).
  2:{ apply F. right. reflexivity. }
  intros o' [E|E]; [apply frozen, E|]. revert o' E. induction ops as [|[y|n] ops IH]; intros o' E; cbn [history]; [constructor| |apply IH, E].
  unfold TextMessageProtocol_option_sum_len_property at 1, memo. change ("_m_" ++ "option_sum_len")%string with "_m_option_sum_len". rewrite E, K1. unfold stored_int, stored, bind. rewrite K2.
  assert (V : match resolve_enum TextMessageProtocol_OptionFlags (ubits b 1 1) with VEnum _ _ z => z | _ => 7 end = Z.b2z (bit b 1) /\ exists c m z, resolve_enum TextMessageProtocol_OptionFlags (ubits b 1 1) = VEnum c m z).
  { rewrite ubits_1. destruct (bit b 1); split; try reflexivity; do 3 eexists; reflexivity. }
  destruct V as [V [c [m [z V2]]]]. rewrite V2 in V |- *. subst z. cbv beta iota delta [ret].
  destruct (bit b 1) eqn:B1; cbn [Z.b2z Z.eqb Pos.eqb].
  - rewrite K3 by reflexivity. cbv beta iota delta [ret]. constructor; [split; reflexivity|]. apply frozen. cbn [l_attrs]. rewrite lookup_app. change ("_m_" ++ "option_sum_len")%string with "_m_option_sum_len". rewrite K1. reflexivity.
  - constructor; [split; reflexivity|]. apply frozen. cbn [l_attrs]. rewrite lookup_app. change ("_m_" ++ "option_sum_len")%string with "_m_option_sum_len". rewrite K1. reflexivity.
Qed.

(** ** Cases: each of the four messages can be opened, and the properties then give the values shown. *)
Definition shows (r : res live) (get : live -> res pyval * live) : option (res pyval) :=
  match r with Ok o => Some (fst (get o)) | Err _ => None end.
Example C55_cases :
  shows (open_object (p_TelemetryProtocol V010) (B [0xA0; 1; 0; 11; 10; 0; 0; 1; 10; 0; 0; 2; 0; 1; 0xff])) (TelemetryProtocol_specific_service_property V010)
    = Some (Ok (VEnum "TelemetryProtocol.ServiceSpecificTypes" "standard_status_request" 0xA001)) /\
  shows (open_object (p_RealTimeTransportProtocol V011) (B [0xA0; 0x5d; 0; 7; 0; 0; 1; 0; 0; 0; 0; 9; 1; 2; 3; 0; 2])) (RealTimeTransportProtocol_len_padding_property V011)
    = Some (Ok (VInt 2)) /\
  shows (open_object (p_MotTextMessageProtocol V011) (B [0; 4; 0xE0; 0; 0x81; 4; 0x41; 0])) MotTextMessageProtocol_custom_pdu_type_property = Some (Ok (VInt 32)) /\
  shows (open_object (p_TextMessageProtocol V010) (B [0x40; 0xA2; 0; 15; 0; 2; 0; 0; 0; 1; 10; 0; 0; 1; 10; 0; 0; 2; 0; 0x41; 0])) TextMessageProtocol_option_sum_len_property = Some (Ok (VInt 4)).
Proof. repeat split; vm_compute; reflexivity. Qed.
Print Assumptions C55_telemetry_specific_service.
Print Assumptions C55_rtp_len_padding.
Print Assumptions C55_custom_pdu_type.
Print Assumptions C55_option_sum_len.
