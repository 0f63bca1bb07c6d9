(** C06: self-delimiting messages ignore trailing bytes. *)
From Verif Require Import PyBase Runtime Codec Enums Getters EtsiModel HomebrewModel HyteraModel MotorolaModel AllParsers StableProofs PropGeneral2.
Open Scope string_scope.
Open Scope list_scope.
Open Scope Z_scope.

Ltac index x l := lazymatch l with x :: _ => constr:(O) | _ :: ?r => let n := index x r in constr:(S n) end.
Ltac in_list := lazymatch goal with |- In ?x ?l => let l' := eval unfold self_delimiting in l in let n := index x l' in apply (nth_error_In l n); reflexivity end.

(** [self_delimiting] (StableProofs.v) lists 126 of the 156 classes. *)
Theorem C06_trailing_bytes_ignored : forall (name : string) (p : runtime -> M pyval), In (name, p) self_delimiting ->
  forall (rt : runtime) (b t : bytes) (v : pyval), from_bytes (p rt) b = Ok v -> from_bytes (p rt) (b ++ t) = Ok v.
Proof.
  intros name p H rt b t v E. pose proof (proj1 (Forall_forall _ _) self_delimiting_stable _ H rt) as S. cbn [snd] in S.
  unfold from_bytes in *. destruct (p rt (stream_of b)) as [r s'] eqn:Em. cbn [fst] in E. subst r.
  change (stream_of (b ++ t)) with (extend (stream_of b) t). rewrite (S _ _ _ t Em). reflexivity.
Qed.

(** The named messages are among them. *)
Theorem C06_includes : forall (name : string) (p : runtime -> M pyval), In (name, p) [
    ("DmrCsbk", fun _ => p_DmrCsbk); ("DmrDataHeader", fun _ => p_DmrDataHeader); ("RadioRegistrationService", p_RadioRegistrationService);
    ("DataDeliveryStates", p_DataDeliveryStates); ("DataTransmitProtocol", p_DataTransmitProtocol); ("LocationProtocol", p_LocationProtocol);
    ("RadioControlProtocol", p_RadioControlProtocol); ("TextMessageProtocol", p_TextMessageProtocol); ("TelemetryProtocol", p_TelemetryProtocol);
    ("HyteraDmrApplicationProtocol", p_HyteraDmrApplicationProtocol);
    ("HyteraRadioNetworkProtocol", p_HyteraRadioNetworkProtocol); ("RadioIp", p_RadioIp); ("RadioId", p_RadioId); ("Gpsdata", p_Gpsdata)] ->
  In (name, p) self_delimiting.
Proof. intros name p. cbn [In]. intros H. repeat (destruct H as [H|H]; [rewrite <- H; in_list|]). destruct H. Qed.

(** Lazily computed attributes: a live object read from the longer buffer answers every property that does
    not look at the end of the stream with the same value. *)
Definition extended (o : live) (t : bytes) : live := {| l_attrs := l_attrs o; l_io := extend (l_io o) t |}.
Lemma open_extended p b t o : stable p -> open_object p b = Ok o -> open_object p (b ++ t) = Ok (extended o t).
Proof.
  intros S H. unfold open_object in *. change (stream_of (b ++ t)) with (extend (stream_of b) t).
  destruct (p (stream_of b)) as [[v|e] s] eqn:E; [|discriminate]. rewrite (S _ _ _ t E). destruct v as [| | | | | | |c a]; try discriminate.
  assert (o = {| l_attrs := a; l_io := s |}) as -> by congruence. reflexivity.
Qed.
Lemma memo_extended x compute o t v o' : (forall a, stable (compute a)) -> memo x compute o = (Ok v, o') -> memo x compute (extended o t) = (Ok v, extended o' t).
Proof.
  intros S H. unfold memo in *. cbn [l_attrs l_io extended]. destruct (lookup _ (l_attrs o)) as [w|]; [injection H as <- <-; reflexivity|].
  destruct (compute (l_attrs o) (l_io o)) as [[w|e] s] eqn:E; [|discriminate]. rewrite (S _ _ _ _ t E). injection H as <- <-. reflexivity.
Qed.
Theorem C06_lazy_attributes : forall (rt : runtime) (p : M pyval) (prop : live -> res pyval * live), In (p, prop) [
    (p_DmrDataHeader, DmrDataHeader_data rt); (p_LocationProtocol rt, LocationProtocol_opcode rt);
    (p_RadioIp rt, RadioIp_radio_id); (p_RadioIp rt, RadioIp_radio_ip); (p_RadioId rt, RadioId_radio_id); (p_Gpsdata rt, Gpsdata_gps_available)] ->
  forall (b t : bytes) (o : live), open_object p b = Ok o -> exists o', open_object p (b ++ t) = Ok o' /\
    forall v, fst (prop o) = Ok v -> fst (prop o') = Ok v.
Proof.
  intros rt p prop H b t o Ho. exists (extended o t). split.
  - apply open_extended; [|exact Ho]. cbn [In] in H. repeat (destruct H as [H|H]; [injection H as <- _; auto with stab|]). destruct H.
  - intros v Hv. destruct (prop o) as [r o'] eqn:E. cbn [fst] in Hv. subst r.
    enough (X : prop (extended o t) = (Ok v, extended o' t)) by (rewrite X; reflexivity).
    cbn [In] in H. repeat (destruct H as [H|H]; [injection H as _ <-; refine (memo_extended _ _ _ _ _ _ _ E); intros a; unfold data_header_compute, stored_int, stored; stab|]). destruct H.
Qed.

(** Parsers whose result stays the same as long as the message does not end with the buffer. *)
Definition midway {A} (m : M A) : Prop := forall s a s', m s = (Ok a, s') ->
  s_buf s' = s_buf s /\ (s_pos s <= s_pos s')%nat /\ (s_left s = 0 -> s_left s' = 0) /\
  forall t, (s_pos s' < List.length (s_buf s))%nat -> m (extend s t) = (Ok a, extend s' t).
Lemma mid_ret {A} (a : A) : midway (ret a).
Proof. intros s x s' E. unfold ret in *. injection E as <- <-. auto. Qed.
Lemma mid_bind {A B} (m : M A) (k : A -> M B) : midway m -> (forall a, midway (k a)) -> midway (bind m k).
Proof.
  intros H1 H2 s b s' E. unfold bind in *. destruct (m s) as [[a|e] s1] eqn:Em; [|discriminate].
  destruct (H1 _ _ _ Em) as [B1 [P1 [L1 E1]]]. destruct (H2 a _ _ _ E) as [B2 [P2 [L2 E2]]]. split; [congruence|]. split; [lia|]. split; [auto|].
  intros t Ht. rewrite E1 by lia. apply E2. rewrite B1. exact Ht.
Qed.
Lemma mid_bytes rt n : midway (read_bytes rt n).
Proof.
  intros s x s' E. enough (X : s_buf s' = s_buf s /\ (s_pos s <= s_pos s')%nat /\ (s_left s = 0 -> s_left s' = 0)) by (destruct X as [X1 [X2 X3]]; split; [exact X1|]; split; [exact X2|]; split; [exact X3|]; intros t _; now apply st_bytes).
  unfold read_bytes, raw_read_bytes in E. destruct (n <? 0); [discriminate|]. unfold io_read in E. cbv beta iota zeta in E.
  match type of E with (if ?c then _ else _) = _ => destruct c end; [discriminate|]. injection E as _ <-. destruct rt; cbn [auto_align align_state set_pos s_buf s_pos s_left]; split; [reflexivity|split; [lia|auto]|reflexivity|split; [lia|auto]].
Qed.
Lemma mid_eof rt : midway (is_eof rt).
Proof.
  intros s x s' E. unfold is_eof in *. cbn [s_left extend]. destruct (0 <? s_left s); [injection E as <- <-; auto|].
  destruct rt; unfold io_read in *; cbv beta iota zeta in *; cbn [s_pos s_buf extend] in *.
  - assert (K : forall l, (if blen l <=? 1 then l else firstn (Z.to_nat 1) l) = [] -> l = []).
    { intros [|y l]; [auto|]. destruct (blen (y :: l) <=? 1); discriminate. }
    match type of E with context [match ?l with [] => _ | _ => _ end] => destruct l as [|y l'] eqn:R end.
    + injection E as <- <-. cbn [set_pos s_buf s_pos List.length]. split; [reflexivity|]. split; [lia|]. split; [auto|]. intros t Ht. exfalso.
      apply K in R. apply (f_equal (@List.length _)) in R. rewrite skipn_length in R. cbn [List.length] in R. lia.
    + injection E as <- <-. split; [reflexivity|]. split; [lia|]. split; [auto|]. intros t Ht.
      match goal with |- context [match ?l with [] => _ | _ => _ end] => destruct l as [|z l''] eqn:R' end; [|reflexivity].
      exfalso. apply K in R'. apply (f_equal (@List.length _)) in R'. rewrite skipn_length, app_length in R'. cbn [List.length] in R'. lia.
  - injection E as <- <-. split; [reflexivity|]. split; [lia|]. split; [auto|]. intros t Ht. rewrite app_length.
    destruct (Nat.leb_spec (List.length (s_buf s)) (s_pos s)); [lia|]. destruct (Nat.leb_spec (List.length (s_buf s) + List.length t) (s_pos s)); [lia|]. reflexivity.
Qed.
Lemma mid_u1 rt : midway (read_u1 rt). Proof. apply mid_bind; [apply mid_bytes|intros; apply mid_ret]. Qed.
Lemma mid_fuel {A} (loop : nat -> M A) : budget_free loop -> (forall n, midway (loop n)) -> midway (with_fuel loop).
Proof.
  intros Hb Hm s a s' E. unfold with_fuel in *. destruct (Hm _ _ _ _ E) as [B1 [P1 [L1 E1]]]. split; [exact B1|]. split; [exact P1|]. split; [exact L1|]. intros t Ht.
  specialize (E1 t Ht). rewrite <- E1. apply Hb; [rewrite E1; discriminate|]. cbn [s_buf extend]. rewrite app_length. lia.
Qed.
Lemma mid_var rt n : midway (var_payload rt n).
Proof.
  induction n as [|n IH]; cbn [var_payload]; [intros s a s' E; discriminate|]. apply mid_bind; [apply mid_u1|]. intros x.
  apply mid_bind; [destruct (_ =? 0); [apply mid_ret|apply mid_eof]|]. intros [|]; [apply mid_ret|]. apply mid_bind; [exact IH|]. intros; apply mid_ret.
Qed.
Lemma mid_uintvar rt : midway (p_MotorolaBinaryXml_Uintvar rt).
Proof. apply mid_bind; [|intros; apply mid_ret]. apply mid_fuel; [apply C03_budget_is_irrelevant|apply mid_var]. Qed.
Lemma mid_some {A} (m : M A) : midway m -> midway (some m). Proof. intros H. apply mid_bind; [exact H|intros; apply mid_ret]. Qed.
Lemma mid_venum E m : midway m -> midway (venum E m). Proof. intros H. apply mid_bind; [exact H|intros; apply mid_ret]. Qed.
Lemma mid_vbytes rt n : midway (vbytes rt n). Proof. apply mid_bind; [apply mid_bytes|intros; apply mid_ret]. Qed.
Ltac mid := repeat match goal with
  | |- midway (bind _ _) => apply mid_bind; [|intros ?]
  | |- midway (if ?c then _ else _) => destruct c
  | |- midway (ret _) => apply mid_ret
  | |- midway (obj _ _) => unfold obj; cbn [seq]
  | |- midway (some _) => apply mid_some
  | |- midway (@none _) => apply mid_ret
  | |- midway (venum _ _) => apply mid_venum
  | |- midway (vbytes _ _) => apply mid_vbytes
  | |- midway (read_u1 _) => apply mid_u1
  | |- midway (read_bytes _ _) => apply mid_bytes
  | |- midway (p_MotorolaBinaryXml_Uintvar _) => apply mid_uintvar
  end.
Lemma mid_document rt : midway (p_MotorolaBinaryXml_MbxmlDocument rt).
Proof.
  unfold p_MotorolaBinaryXml_MbxmlDocument. mid. unfold p_MotorolaBinaryXml_LrrpImmediateRequestNcdt. mid. unfold p_MotorolaBinaryXml_LrrpElement. mid.
  - unfold p_MotorolaBinaryXml_OpaqueElementValue. mid.
  - unfold p_MotorolaBinaryXml_Opaque1byteValue. mid.
  - unfold p_MotorolaBinaryXml_ConstantDataTableReference. mid.
Qed.

(** An MBXML packet is self-delimiting as well, although its numbers are not: it parses only when
    something follows the document. *)
Theorem C06_mbxml : forall (rt : runtime) (b t : bytes) (v : pyval),
  from_bytes (p_MotorolaBinaryXml rt) b = Ok v -> from_bytes (p_MotorolaBinaryXml rt) (b ++ t) = Ok v.
Proof.
  intros rt b t v H. unfold from_bytes, p_MotorolaBinaryXml in *. change (stream_of (b ++ t)) with (extend (stream_of b) t).
  assert (L : forall n s r s', s_left s = 0 -> mbxml_documents rt n s = (Ok r, s') -> mbxml_documents rt n (extend s t) = (Ok r, extend s' t)).
  { induction n as [|n IH]; intros s r s' H0 E; [discriminate|]. cbn [mbxml_documents] in *. unfold bind in *.
    destruct (p_MotorolaBinaryXml_MbxmlDocument rt s) as [[d|e] s1] eqn:Ed; [|discriminate].
    destruct (mid_document rt _ _ _ Ed) as [B1 [P1 [L1 E1]]].
    destruct (is_eof rt s1) as [[[|]|e] s2] eqn:Ee; [| |discriminate]; cbn [negb] in E.
    - (* at the end of the buffer the next document cannot be read *)
      exfalso. destruct (mbxml_documents rt n s2) as [[l|e] s3] eqn:El; [|discriminate].
      assert (Q : (List.length (s_buf s2) <= s_pos s2)%nat).
      { unfold is_eof in Ee. destruct (0 <? s_left s1); [discriminate|]. destruct rt.
        - unfold io_read in Ee. cbv beta iota zeta in Ee. destruct (skipn (s_pos s1) (s_buf s1)) as [|y l'] eqn:R.
          + change (blen [] <=? 1) with true in Ee. cbv iota in Ee. injection Ee as <-. cbn [set_pos s_buf s_pos List.length].
            apply (f_equal (@List.length _)) in R. rewrite skipn_length in R. cbn [List.length] in R. lia.
          + destruct (blen (y :: l') <=? 1); discriminate.
        - assert (s2 = s1) as -> by congruence. destruct (Nat.leb_spec (List.length (s_buf s1)) (s_pos s1)); [assumption|discriminate]. }
      destruct n as [|n]; [discriminate|]. cbn [mbxml_documents] in El. unfold p_MotorolaBinaryXml_MbxmlDocument, venum, read_u1, read_bytes, raw_read_bytes, io_read, bind in El.
      replace (skipn (s_pos (auto_align rt s2)) (s_buf (auto_align rt s2))) with (@nil byte) in El; [discriminate|].
      symmetry. apply skipn_all2. destruct rt; exact Q.
    - assert (Q : (s_pos s1 < List.length (s_buf s))%nat \/ 0 < s_left s1).
      { unfold is_eof in Ee. destruct (Z.ltb_spec 0 (s_left s1)); [right; assumption|left]. rewrite <- B1. destruct rt.
        - unfold io_read in Ee. cbv beta iota zeta in Ee. destruct (Nat.lt_ge_cases (s_pos s1) (List.length (s_buf s1))); [assumption|].
          rewrite skipn_all2 in Ee by assumption. discriminate.
        - destruct (Nat.leb_spec (List.length (s_buf s1)) (s_pos s1)); [discriminate|assumption]. }
      assert (Q' : (s_pos s1 < List.length (s_buf s))%nat).
      { destruct Q as [Q|Q]; [exact Q|]. exfalso. rewrite (L1 H0) in Q. lia. }
      rewrite (E1 t Q'). destruct (mid_eof rt _ _ _ Ee) as [B2 [P2 [L2 E2]]].
      assert (S2 : s2 = s1).
      { unfold is_eof in Ee. destruct (0 <? s_left s1); [congruence|]. destruct rt; [|congruence]. unfold io_read in Ee. cbv beta iota zeta in Ee.
        match type of Ee with context [match ?l with [] => _ | _ => _ end] => destruct l end; congruence. }
      subst s2. rewrite E2 by (rewrite B1; lia). cbn [negb]. injection E as <- <-. reflexivity. }
  unfold bind in *. destruct (with_fuel (mbxml_documents rt) (stream_of b)) as [[l|e] s1] eqn:El; [|discriminate].
  unfold with_fuel in *. pose proof (L _ (stream_of b) _ _ eq_refl El) as L'.
  destruct (C03_budget_is_irrelevant rt) as [_ [_ [_ Hb]]]. rewrite (Hb (S (List.length (s_buf (stream_of b))))) with (m := S (List.length (s_buf (extend (stream_of b) t)))).
  - rewrite L'. exact H.
  - rewrite L'. discriminate.
  - cbn [s_buf extend stream_of]. rewrite app_length. lia.
Qed.

(** No other class is self-delimiting: for each there is a packet to which some bytes can be appended that
    change the result. *)
Definition zeros n := B (List.repeat 0 n).
Definition not_delimited (p : runtime -> M pyval) : Prop :=
  exists (b t : bytes) (v : pyval), from_bytes (p V010) b = Ok v /\ from_bytes (p V010) (b ++ t) <> Ok v.
Ltac nd x y := exists x, y; eexists; split; [vm_compute; reflexivity|vm_compute; discriminate].
Definition digits n := B (List.repeat 48 n).
Definition ipsc_sample := B ([1; 2; 0x5a; 0x5a; 9; 0; 0; 0; 1; 0; 0; 0; 0; 0; 0; 0; 0x11; 0x11; 0x33; 0x33; 0x11; 0x11; 0; 0; 0; 0]
    ++ List.repeat 0xaa 34 ++ [0; 0; 1; 0; 0x38; 0x23; 0; 0; 0x39; 0x23; 0; 0; 0x77]).

Create HintDb ends discriminated.
#[global] Hint Constants Opaque : ends.
#[global] Hint Variables Opaque : ends.
Lemma nd_p_DmrDataHeader_DataHeaderUndefined : not_delimited p_DmrDataHeader_DataHeaderUndefined.
Proof. nd (zeros 3) (B [1]). Qed.
#[global] Hint Resolve nd_p_DmrDataHeader_DataHeaderUndefined : ends.
Lemma nd_p_DmrIpUdp_UdpIpv4CompressedHeader : not_delimited p_DmrIpUdp_UdpIpv4CompressedHeader.
Proof. nd (zeros 12) (B [1]). Qed.
#[global] Hint Resolve nd_p_DmrIpUdp_UdpIpv4CompressedHeader : ends.
Lemma nd_p_FullLinkControl : not_delimited p_FullLinkControl.
Proof. nd (zeros 10) (B [1]). Qed.
#[global] Hint Resolve nd_p_FullLinkControl : ends.
Lemma nd_p_Homebrew2015_TypeMasterRepeaterAck : not_delimited p_Homebrew2015_TypeMasterRepeaterAck.
Proof. nd (blit "CK" ++ zeros 4) (zeros 4). Qed.
#[global] Hint Resolve nd_p_Homebrew2015_TypeMasterRepeaterAck : ends.
Lemma nd_p_Homebrew2015_TypeDmrData : not_delimited p_Homebrew2015_TypeDmrData.
Proof. nd (zeros 49) (B [1]). Qed.
#[global] Hint Resolve nd_p_Homebrew2015_TypeDmrData : ends.
Lemma nd_p_Homebrew2015_TypeRepeaterOptions : not_delimited p_Homebrew2015_TypeRepeaterOptions.
Proof. nd (zeros 4) (B [1]). Qed.
#[global] Hint Resolve nd_p_Homebrew2015_TypeRepeaterOptions : ends.
Lemma nd_p_Homebrew2015_TypeRepeaterConfiguration : not_delimited p_Homebrew2015_TypeRepeaterConfiguration.
Proof. nd (zeros 4 ++ digits 300) (B [48]). Qed.
#[global] Hint Resolve nd_p_Homebrew2015_TypeRepeaterConfiguration : ends.
Lemma nd_p_Homebrew2015 : not_delimited p_Homebrew2015.
Proof. nd (blit "DMRD" ++ zeros 49) (B [1]). Qed.
#[global] Hint Resolve nd_p_Homebrew2015 : ends.
Lemma nd_p_Mmdvm2020_TypeUnknown : not_delimited p_Mmdvm2020_TypeUnknown.
Proof. nd (zeros 3) (B [1]). Qed.
#[global] Hint Resolve nd_p_Mmdvm2020_TypeUnknown : ends.
Lemma nd_p_Mmdvm2020_TypeDmrData : not_delimited p_Mmdvm2020_TypeDmrData.
Proof. nd (zeros 49) (B [1]). Qed.
#[global] Hint Resolve nd_p_Mmdvm2020_TypeDmrData : ends.
Lemma nd_p_Mmdvm2020_TypeRepeaterOptions : not_delimited p_Mmdvm2020_TypeRepeaterOptions.
Proof. nd (zeros 4) (B [1]). Qed.
#[global] Hint Resolve nd_p_Mmdvm2020_TypeRepeaterOptions : ends.
Lemma nd_p_Mmdvm2020_TypeRepeaterConfiguration : not_delimited p_Mmdvm2020_TypeRepeaterConfiguration.
Proof. nd (zeros 4 ++ digits 300) (B [48]). Qed.
#[global] Hint Resolve nd_p_Mmdvm2020_TypeRepeaterConfiguration : ends.
Lemma nd_p_Mmdvm2020 : not_delimited p_Mmdvm2020.
Proof. nd (blit "DMRD" ++ zeros 49) (B [1]). Qed.
#[global] Hint Resolve nd_p_Mmdvm2020 : ends.
Lemma nd_p_HyteraDmrApplicationProtocol_UndefinedProtocol : not_delimited p_HyteraDmrApplicationProtocol_UndefinedProtocol.
Proof. nd (zeros 3) (B [1]). Qed.
#[global] Hint Resolve nd_p_HyteraDmrApplicationProtocol_UndefinedProtocol : ends.
Lemma nd_p_HyteraSimpleTransportReliabilityProtocol : not_delimited p_HyteraSimpleTransportReliabilityProtocol.
Proof. nd (B [50; 66; 0; 0; 0; 0]) (B [1]). Qed.
#[global] Hint Resolve nd_p_HyteraSimpleTransportReliabilityProtocol : ends.
Lemma nd_p_IpSiteConnectProtocol : not_delimited p_IpSiteConnectProtocol.
Proof. nd ipsc_sample (B [1]). Qed.
#[global] Hint Resolve nd_p_IpSiteConnectProtocol : ends.
Lemma nd_p_IpSiteConnectHeartbeat_Unknown : not_delimited p_IpSiteConnectHeartbeat_Unknown.
Proof. nd (zeros 3) (B [1]). Qed.
#[global] Hint Resolve nd_p_IpSiteConnectHeartbeat_Unknown : ends.
Lemma nd_p_IpSiteConnectHeartbeat : not_delimited p_IpSiteConnectHeartbeat.
Proof. nd (B [0x24; 128]) (B [1]). Qed.
#[global] Hint Resolve nd_p_IpSiteConnectHeartbeat : ends.
Lemma nd_p_RealTimeTransportProtocol : not_delimited p_RealTimeTransportProtocol.
Proof. nd (B [128] ++ zeros 40) (B [1]). Qed.
#[global] Hint Resolve nd_p_RealTimeTransportProtocol : ends.
Lemma nd_p_AutomaticRegistrationService : not_delimited p_AutomaticRegistrationService.
Proof. nd (zeros 60) (B [1]). Qed.
#[global] Hint Resolve nd_p_AutomaticRegistrationService : ends.
Lemma nd_p_MotTextMessageProtocol : not_delimited p_MotTextMessageProtocol.
Proof. nd (zeros 60) (B [1]). Qed.
#[global] Hint Resolve nd_p_MotTextMessageProtocol : ends.
Lemma nd_p_MotorolaBinaryXml_Uintvar : not_delimited p_MotorolaBinaryXml_Uintvar.
Proof. nd (B [128]) (B [1]). Qed.
#[global] Hint Resolve nd_p_MotorolaBinaryXml_Uintvar : ends.
Lemma nd_p_MotorolaBinaryXml_Sintvar : not_delimited p_MotorolaBinaryXml_Sintvar.
Proof. nd (B [128]) (B [1]). Qed.
#[global] Hint Resolve nd_p_MotorolaBinaryXml_Sintvar : ends.
Lemma nd_p_MotorolaBinaryXml_ConstantDataTableReference : not_delimited p_MotorolaBinaryXml_ConstantDataTableReference.
Proof. nd (B [128]) (B [1]). Qed.
#[global] Hint Resolve nd_p_MotorolaBinaryXml_ConstantDataTableReference : ends.
Lemma nd_p_MotorolaBinaryXml_LrrpElement : not_delimited p_MotorolaBinaryXml_LrrpElement.
Proof. nd (B [0x24; 128]) (B [1]). Qed.
#[global] Hint Resolve nd_p_MotorolaBinaryXml_LrrpElement : ends.
Lemma nd_p_MotorolaBinaryXml_LrrpImmediateRequestNcdt : not_delimited p_MotorolaBinaryXml_LrrpImmediateRequestNcdt.
Proof. nd (B [0x24; 128]) (B [1]). Qed.
#[global] Hint Resolve nd_p_MotorolaBinaryXml_LrrpImmediateRequestNcdt : ends.
Lemma nd_p_MotorolaBinaryXml_Sfloatvar : not_delimited p_MotorolaBinaryXml_Sfloatvar.
Proof. nd (B [1; 128]) (B [1]). Qed.
#[global] Hint Resolve nd_p_MotorolaBinaryXml_Sfloatvar : ends.
Lemma nd_p_MotorolaBinaryXml_Ufloatvar : not_delimited p_MotorolaBinaryXml_Ufloatvar.
Proof. nd (B [1; 128]) (B [1]). Qed.
#[global] Hint Resolve nd_p_MotorolaBinaryXml_Ufloatvar : ends.
Lemma nd_p_MotorolaBinaryXml_MbxmlDocument : not_delimited p_MotorolaBinaryXml_MbxmlDocument.
Proof. nd (B [0x24; 128]) (B [1]). Qed.
#[global] Hint Resolve nd_p_MotorolaBinaryXml_MbxmlDocument : ends.

(** Every class either ignores trailing bytes or, on some packet, does not. *)
Definition delimited (p : runtime -> M pyval) : Prop :=
  forall (rt : runtime) (b t : bytes) (v : pyval), from_bytes (p rt) b = Ok v -> from_bytes (p rt) (b ++ t) = Ok v.
Lemma stable_delimited p : (forall rt, stable (p rt)) -> delimited p.
Proof.
  intros S rt b t v E. unfold from_bytes in *. destruct (p rt (stream_of b)) as [r s'] eqn:Em. cbn [fst] in E. subst r.
  change (stream_of (b ++ t)) with (extend (stream_of b) t). rewrite (S rt _ _ _ t Em). reflexivity.
Qed.
Lemma classify_fixed p : (forall rt, stable (p rt)) -> delimited p \/ not_delimited p.
Proof. intros S. left. apply stable_delimited, S. Qed.
Lemma classify_ends p : not_delimited p -> delimited p \/ not_delimited p.
Proof. auto. Qed.

Theorem C06_classification : Forall (fun np => delimited (snd np) \/ not_delimited (snd np)) all_parsers.
Proof.
  unfold all_parsers. repeat (apply Forall_cons; [cbn [snd]; lazymatch goal with
    | |- delimited p_MotorolaBinaryXml \/ _ => left; exact C06_mbxml
    | |- _ => first [apply classify_ends; solve [auto with ends] | apply classify_fixed; intros rt; cbv beta; solve [auto with stab]] end|]). apply Forall_nil.
Qed.
(** the classes that do not *)
Theorem C06_others_depend_on_the_end : Forall not_delimited [
  p_DmrDataHeader_DataHeaderUndefined;
  p_DmrIpUdp_UdpIpv4CompressedHeader;
  p_FullLinkControl;
  p_Homebrew2015_TypeMasterRepeaterAck;
  p_Homebrew2015_TypeDmrData;
  p_Homebrew2015_TypeRepeaterOptions;
  p_Homebrew2015_TypeRepeaterConfiguration;
  p_Homebrew2015;
  p_Mmdvm2020_TypeUnknown;
  p_Mmdvm2020_TypeDmrData;
  p_Mmdvm2020_TypeRepeaterOptions;
  p_Mmdvm2020_TypeRepeaterConfiguration;
  p_Mmdvm2020;
  p_HyteraDmrApplicationProtocol_UndefinedProtocol;
  p_HyteraSimpleTransportReliabilityProtocol;
  p_IpSiteConnectProtocol;
  p_IpSiteConnectHeartbeat_Unknown;
  p_IpSiteConnectHeartbeat;
  p_RealTimeTransportProtocol;
  p_AutomaticRegistrationService;
  p_MotTextMessageProtocol;
  p_MotorolaBinaryXml_Uintvar;
  p_MotorolaBinaryXml_Sintvar;
  p_MotorolaBinaryXml_ConstantDataTableReference;
  p_MotorolaBinaryXml_LrrpElement;
  p_MotorolaBinaryXml_LrrpImmediateRequestNcdt;
  p_MotorolaBinaryXml_Sfloatvar;
  p_MotorolaBinaryXml_Ufloatvar;
  p_MotorolaBinaryXml_MbxmlDocument].
Proof. repeat (apply Forall_cons; [solve [auto with ends]|]). apply Forall_nil. Qed.

Example C06_case : exists v, from_bytes (p_HyteraDmrApplicationProtocol V010) (B [0x91; 0; 3; 0; 4; 10; 0; 0; 1; 0x77; 3]) = Ok v /\
  from_bytes (p_HyteraDmrApplicationProtocol V010) (B [0x91; 0; 3; 0; 4; 10; 0; 0; 1; 0x77; 3] ++ B [1; 2; 3]) = Ok v.
Proof. eexists. split; vm_compute; reflexivity. Qed.

Print Assumptions C06_trailing_bytes_ignored.
Print Assumptions C06_lazy_attributes.
Print Assumptions C06_mbxml.
Print Assumptions C06_others_depend_on_the_end.
Print Assumptions C06_classification.
