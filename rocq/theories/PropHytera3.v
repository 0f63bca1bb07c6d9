(** Properties C35 - C38 (see properties.jsonl): IPSC, its heartbeat, RTP. Each theorem is followed by a
    concrete case. *)
From Verif Require Import PyBase Runtime Codec CodecSpec CodecProofs Enums EnumProofs Getters Spec DecSpec BitSpec RuntimeProofs TilesProofs DecProofs DecAlgebra GetterProofs EtsiCor HomebrewCor HyteraModel HyteraSpec HyteraRuns HyteraProofs HyteraProofs2 HyteraProofs3 HyteraCor HyteraCor2 PropHytera1 HyteraCor3 PropHytera2.
From Coq Require Import ZifyBool.
Ltac Zify.zify_post_hook ::= Z.div_mod_to_equations.
Open Scope string_scope.
Open Scope list_scope.
Open Scope Z_scope.

(** * C35 *)
(** the attributes of an IPSC packet; [le16 b p] is the little-endian 16-bit number at byte [p] *)
Definition ipsc_attrs (b : bytes) : attrs := [
  ("source_port", VBytes (slice b 0 2));
  ("fixed_header", VBytes (B [0x5a; 0x5a]));
  ("sequence_number", VInt (ubits b (8 * 4) 8));
  ("reserved_3", VBytes (slice b 5 3));
  ("packet_type", resolve_enum IpSiteConnectProtocol_PacketTypes (ubits b (8 * 8) 8));
  ("reserved_7a", VBytes (slice b 9 7));
  ("timeslot_raw", resolve_enum IpSiteConnectProtocol_Timeslots (ubits b (8 * 16) 16));
  ("slot_type", resolve_enum IpSiteConnectProtocol_SlotTypes (ubits b (8 * 18) 16));
  ("color_code_raw", VInt (le16 b 20));
  ("frame_type", resolve_enum IpSiteConnectProtocol_FrameTypes (ubits b (8 * 22) 16));
  ("reserved_2a", VBytes (slice b 24 2));
  ("ipsc_payload", VBytes (slice b 26 34));
  ("reserved_2b", VBytes (slice b 60 2));
  ("call_type", resolve_enum IpSiteConnectProtocol_CallTypes (ubits b (8 * 62) 8));
  ("destination_radio_id_raw", VInt (le16 b 63 + 65536 * le16 b 65));
  ("source_radio_id_raw", VInt (le16 b 67 + 65536 * le16 b 69));
  ("reserved_1b", VInt (ubits b (8 * 71) 8))].
Theorem C35_ipsc_decoding : forall rt b,
  from_bytes (p_IpSiteConnectProtocol rt) b =
    if blen b <? 4 then Err EOFError
    else if negb (bytes_eqb (slice b 2 2) (B [0x5a; 0x5a])) then Err (ValidationNotEqualError (VBytes (B [0x5a; 0x5a])) (VBytes (slice b 2 2)) "/seq/1")
    else if blen b <? 72 then Err EOFError
    else Ok (VObj "IpSiteConnectProtocol" (ipsc_attrs b ++ (if 72 <? blen b then [("extra_data", VBytes (rest b 72))] else []))).
Proof.
  intros rt b. rewrite ipsc_meets. unfold ipsc_spec, L_IpSiteConnectProtocol. pose proof (blen_nonneg b) as Hb.
  destruct (Z.ltb_spec (blen b) 4) as [L1|L1].
  { spec_cbn. change (blen (B [0x5a; 0x5a])) with 2. norm_lits. destruct (fits b 0 16); [|reflexivity]. rewrite (proj2 (fits_niff b 0 32)) by lia. reflexivity. }
  set (fs := F "sequence_number" 32 (U 8) :: _).
  assert (D : forall fs, fields b 0 (F "source_port" 0 (KBytes 2) :: F "fixed_header" 16 (KMagic (B [0x5a; 0x5a]) "/seq/1") :: fs) =
     if bytes_eqb (slice b 2 2) (B [0x5a; 0x5a]) then let* a := fields b 0 fs in Ok (("source_port", VBytes (slice b 0 2)) :: ("fixed_header", VBytes (B [0x5a; 0x5a])) :: a)
     else Err (ValidationNotEqualError (VBytes (B [0x5a; 0x5a])) (VBytes (slice b 2 2)) "/seq/1")).
  { clear fs. intros fs. cbn [fields decode f_off f_kind f_name kwidth nwidth num rbind rmap]. change (blen (B [0x5a; 0x5a])) with 2. norm_lits. rewrite (proj2 (fits_iff b 0 16)), (proj2 (fits_iff b 0 32)) by lia.
    cbv zeta. change (0 + 16 / 8) with 2. change (0 + 0 / 8) with 0. destruct (bytes_eqb (slice b 2 2) _); cbn [rbind rmap]; [|reflexivity]. destruct (fields b 0 fs); reflexivity. }
  rewrite D. clear D. destruct (bytes_eqb (slice b 2 2) (B [0x5a; 0x5a])); cbn [negb]; [|reflexivity].
  assert (K : fs_end fs 32 = 576) by reflexivity.
  pose proof (fields_eof_only fs ltac:(subst fs; eoftable) 32 b 0 eq_refl eq_refl ltac:(lia) ltac:(apply fits_iff; lia)) as H. rewrite K in H. clear K.
  destruct (Z.ltb_spec (blen b) 72) as [L2|L2].
  { destruct (fields b 0 fs); [apply fits_iff in H; lia|]. destruct H as [-> _]. reflexivity. }
  clear H. subst fs. long_fields. rewrite !le32_slice, le16_slice by lia. unfold ipsc_attrs. norm_lits. reflexivity.
Qed.
Print Assumptions C35_ipsc_decoding.
Example C35_case : exists v, from_bytes (p_IpSiteConnectProtocol V011) (B ([1; 2; 0x5a; 0x5a; 9; 0; 0; 0; 1; 0; 0; 0; 0; 0; 0; 0; 0x11; 0x11; 0x33; 0x33; 0x11; 0x11; 0; 0; 0; 0]
    ++ List.repeat 0xaa 34 ++ [0; 0; 1; 0; 0x38; 0x23; 0; 0; 0x39; 0x23; 0; 0; 0x77])) = Ok v /\
  getattr "extra_data" v = Some (VBytes (B [0x77])) /\ getattr "source_radio_id_raw" v = Some (VInt 0x233900) /\
  getattr "ipsc_payload" v = Some (VBytes (B (List.repeat 0xaa 34))).
Proof. eexists. split; [vm_compute; reflexivity|]. vm_compute. repeat split; reflexivity. Qed.

(** * C36 *)
(** The four derived attributes of the class. *)
Definition Ipsc_property (x : string) : live -> res pyval * live :=
  if String.eqb x "source_radio_id" then IpSiteConnectProtocol_source_radio_id
  else if String.eqb x "destination_radio_id" then IpSiteConnectProtocol_destination_radio_id
  else if String.eqb x "color_code" then IpSiteConnectProtocol_color_code
  else if String.eqb x "is_wakeup" then IpSiteConnectProtocol_is_wakeup
  else no_property x.
(** their values, from the packet bytes: the 32-bit ids without their lowest byte, the low nibble, and the
    three wake-up marks *)
Definition ipsc_derived (b : bytes) (x : string) : res pyval :=
  if String.eqb x "source_radio_id" then Ok (VInt (ubits b (8 * 68) 8 + 256 * ubits b (8 * 69) 8 + 65536 * ubits b (8 * 70) 8))
  else if String.eqb x "destination_radio_id" then Ok (VInt (ubits b (8 * 64) 8 + 256 * ubits b (8 * 65) 8 + 65536 * ubits b (8 * 66) 8))
  else if String.eqb x "color_code" then Ok (VInt (ubits b (8 * 20 + 4) 4))
  else if String.eqb x "is_wakeup" then Ok (VBool ((ubits b (8 * 62) 8 =? 2) || (ubits b (8 * 62) 8 =? 0x0c) || (ubits b (8 * 18) 16 =? 0xdddd)))
  else Err (AttributeError x).
Lemma land15 x : Z.land x 15 = x mod 16.
Proof. change 15 with (Z.ones 4). apply Z.land_ones. lia. Qed.
Lemma low_nibble b p : 0 <= p -> ubits b (8 * p) 8 mod 16 = ubits b (8 * p + 4) 4.
Proof.
  intros Hp. replace (ubits b (8 * p) 8) with (ubits b (8 * p) (4 + 4)) by reflexivity. rewrite ubits_app by lia.
  pose proof (ubits_bound b (8 * p + 4) 4 ltac:(lia)) as H. change (2 ^ 4) with 16 in *. lia.
Qed.
Lemma shift_le b p : 0 <= p -> Z.shiftr (le16 b p + 65536 * le16 b (p + 2)) 8 = ubits b (8 * (p + 1)) 8 + 256 * ubits b (8 * (p + 2)) 8 + 65536 * ubits b (8 * (p + 3)) 8.
Proof.
  intros Hp. rewrite Z.shiftr_div_pow2 by lia. change (2 ^ 8) with 256. unfold le16.
  replace (8 * p + 8) with (8 * (p + 1)) by lia. replace (8 * (p + 2) + 8) with (8 * (p + 3)) by lia.
  pose proof (ubits_bound b (8 * p) 8 ltac:(lia)) as H. change (2 ^ 8) with 256 in H. lia.
Qed.
Theorem C36_ipsc_derived : forall rt b o ops, open_object (p_IpSiteConnectProtocol rt) b = Ok o ->
  Forall (fun ob => ob_result ob = ipsc_derived b (ob_name ob) /\ (forall v, ob_result ob = Ok v -> ob_after ob = ob_before ob))
    (history rt Ipsc_property ops o).
Proof.
  intros rt b o ops Ho. apply open_from in Ho as [cls Ho]. rewrite C35_ipsc_decoding in Ho.
  destruct (blen b <? 4); [discriminate|]. destruct (negb _); [discriminate|]. destruct (blen b <? 72); [discriminate|].
  assert (Ha : l_attrs o = ipsc_attrs b ++ (if 72 <? blen b then [("extra_data", VBytes (rest b 72))] else [])) by congruence. clear Ho.
  set (base := ipsc_attrs b ++ _) in Ha.
  assert (B1 : lookup "source_radio_id_raw" base = Some (VInt (le16 b 67 + 65536 * le16 b 69))) by reflexivity.
  assert (B2 : lookup "destination_radio_id_raw" base = Some (VInt (le16 b 63 + 65536 * le16 b 65))) by reflexivity.
  assert (B3 : lookup "color_code_raw" base = Some (VInt (le16 b 20))) by reflexivity.
  assert (B4 : lookup "call_type" base = Some (resolve_enum IpSiteConnectProtocol_CallTypes (ubits b (8 * 62) 8))) by reflexivity.
  assert (B5 : lookup "slot_type" base = Some (resolve_enum IpSiteConnectProtocol_SlotTypes (ubits b (8 * 18) 16))) by reflexivity.
  assert (B6 : forallb (fun nv => negb (is_memo (fst nv))) base = true).
  { subst base. rewrite forallb_app. destruct (72 <? blen b); reflexivity. }
  clearbody base.
  set (val := ipsc_derived b).
  refine (derived_history rt _ val _ o ops Ha B6 _).
  assert (V1 : val "source_radio_id" = Ok (VInt (Z.shiftr (le16 b 67 + 65536 * le16 b 69) 8))).
  { change 69 with (67 + 2). rewrite shift_le by lia. reflexivity. }
  assert (V2 : val "destination_radio_id" = Ok (VInt (Z.shiftr (le16 b 63 + 65536 * le16 b 65) 8))).
  { change 65 with (63 + 2). rewrite shift_le by lia. reflexivity. }
  assert (V3 : val "color_code" = Ok (VInt (Z.land (le16 b 20) 15))).
  { rewrite land15. unfold le16. rewrite Z.add_mod, Z.mul_mod by lia. change (256 mod 16) with 0. rewrite Z.mul_0_l, Z.mod_0_l, Z.add_0_r, Z.mod_mod, low_nibble by lia. reflexivity. }
  assert (V4 : val "is_wakeup" = Ok (VBool ((ubits b (8 * 62) 8 =? 2) || (ubits b (8 * 62) 8 =? 0x0c) || (ubits b (8 * 18) 16 =? 0xdddd)))) by reflexivity.
  assert (V5 : forall x, x <> "source_radio_id" -> x <> "destination_radio_id" -> x <> "color_code" -> x <> "is_wakeup" -> val x = Err (AttributeError x)).
  { intros x N1 N2 N3 N4. unfold val, ipsc_derived. rewrite !(proj2 (String.eqb_neq _ _)) by assumption. reflexivity. }
  clearbody val.
  intros x o' Ho. unfold Ipsc_property.
  destruct (String.eqb_spec x "source_radio_id") as [->|N1]; [|destruct (String.eqb_spec x "destination_radio_id") as [->|N2];
    [|destruct (String.eqb_spec x "color_code") as [->|N3]; [|destruct (String.eqb_spec x "is_wakeup") as [->|N4]]]].
  - unfold IpSiteConnectProtocol_source_radio_id. apply (pure_property _ _ val "source_radio_id"); [|exact Ho]. intros a s Hb. unfold bind.
    rewrite (stored_int_intact _ a "source_radio_id_raw" _ s Hb eq_refl B1), V1. reflexivity.
  - unfold IpSiteConnectProtocol_destination_radio_id. apply (pure_property _ _ val "destination_radio_id"); [|exact Ho]. intros a s Hb. unfold bind.
    rewrite (stored_int_intact _ a "destination_radio_id_raw" _ s Hb eq_refl B2), V2. reflexivity.
  - unfold IpSiteConnectProtocol_color_code. apply (pure_property _ _ val "color_code"); [|exact Ho]. intros a s Hb. unfold bind.
    rewrite (stored_int_intact _ a "color_code_raw" _ s Hb eq_refl B3), V3. reflexivity.
  - unfold IpSiteConnectProtocol_is_wakeup. apply (pure_property _ _ val "is_wakeup"); [|exact Ho]. intros a s Hb. unfold bind.
    rewrite (stored_intact _ a "call_type" _ s Hb eq_refl B4), (stored_intact _ a "slot_type" _ s Hb eq_refl B5), V4.
    rewrite (eq_member_code IpSiteConnectProtocol_CallTypes "wakeup_call_2" 2), (eq_member_code IpSiteConnectProtocol_CallTypes "wakeup_call_c" 12), (eq_member_code IpSiteConnectProtocol_SlotTypes "slot_type_wakeup_request" 0xdddd) by reflexivity.
    reflexivity.
  - apply (no_property_intact _ _ _ x o'); [|exact Ho]. apply V5; assumption.
Qed.
Print Assumptions C36_ipsc_derived.
Example C36_case : exists o, open_object (p_IpSiteConnectProtocol V010) (B ([1; 2; 0x5a; 0x5a; 9; 0; 0; 0; 1; 0; 0; 0; 0; 0; 0; 0; 0x11; 0x11; 0xdd; 0xdd; 0x15; 0x11; 0; 0; 0; 0]
    ++ List.repeat 0xaa 34 ++ [0; 0; 1; 0; 0x38; 0x23; 0; 0; 0x39; 0x23; 0; 0])) = Ok o /\
  map (fun ob => (ob_name ob, ob_result ob)) (history V010 Ipsc_property [Get "color_code"; Get "is_wakeup"; Seek 5; Get "source_radio_id"; Get "color_code"; Get "destination_radio_id"] o) =
  [("color_code", Ok (VInt 5)); ("is_wakeup", Ok (VBool true)); ("source_radio_id", Ok (VInt 0x2339)); ("color_code", Ok (VInt 5)); ("destination_radio_id", Ok (VInt 0x2338))].
Proof. eexists. split; [vm_compute; reflexivity|]. vm_compute. reflexivity. Qed.

(** * C37 *)
Definition ping_pong (n : byte) : bytes := B [0x5a; 0x5a; 0x5a; 0x5a; 0x0a; 0; 0; 0; 0x14; 0; 0; 0] ++ [n] ++ B [0x5a; 0x59; 0x5a; 0; 0; 0; 0].
Theorem C37_heartbeat_classification : forall rt b,
  (blen b <> 1 -> blen b <> 20 -> from_bytes (p_IpSiteConnectHeartbeat rt) b =
     Ok (VObj "IpSiteConnectHeartbeat" [("data", VObj "IpSiteConnectHeartbeat.Unknown" [("data", VBytes b)])])) /\
  (blen b = 1 ->
     (b = B [0] /\ from_bytes (p_IpSiteConnectHeartbeat rt) b =
        Ok (VObj "IpSiteConnectHeartbeat" [("data", VObj "IpSiteConnectHeartbeat.Keepalive" [("nullbyte", VBytes (B [0]))])])) \/
     (b <> B [0] /\ from_bytes (p_IpSiteConnectHeartbeat rt) b = Err (ValidationNotEqualError (VBytes (B [0])) (VBytes b) "/types/keepalive/seq/0"))) /\
  (blen b = 20 ->
     (exists n, b = ping_pong n /\ from_bytes (p_IpSiteConnectHeartbeat rt) b =
        Ok (VObj "IpSiteConnectHeartbeat" [("data", VObj "IpSiteConnectHeartbeat.PingPong" [
          ("header", VBytes (B [0x5a; 0x5a; 0x5a; 0x5a])); ("heartbeat_identitier", VBytes (B [0x0a; 0; 0; 0; 0x14])); ("nullbytes", VBytes (B [0; 0; 0]));
          ("heartbeat_seq", VInt (bz n)); ("tail", VBytes (B [0x5a; 0x59; 0x5a; 0; 0; 0; 0]))])])) \/
     ((forall n, b <> ping_pong n) /\ exists x y path, from_bytes (p_IpSiteConnectHeartbeat rt) b = Err (ValidationNotEqualError (VBytes x) (VBytes y) path))).
Proof.
  intros rt b. rewrite heartbeat_meets. unfold heartbeat_spec. split; [|split].
  - intros N1 N2. rewrite (proj2 (Z.eqb_neq _ _) N1), (proj2 (Z.eqb_neq _ _) N2). reflexivity.
  - intros H1. rewrite (proj2 (Z.eqb_eq _ _) H1). destruct b as [|x [|y b]]; try (unfold blen in H1; cbn [List.length] in H1; lia).
    unfold object, L_IpSiteConnectHeartbeat_Keepalive. spec_cbn. change (blen (B [0])) with 1. norm_lits. rewrite (proj2 (fits_iff [x] 0 8)) by lia. cbv zeta.
    change (slice [x] 0 1) with [x]. destruct (bytes_eqb [x] (B [0])) eqn:E; [left|right].
    + apply bytes_eqb_true in E. rewrite E. split; reflexivity.
    + split; [|reflexivity]. intros E'. rewrite E', bytes_eqb_refl in E. discriminate.
  - intros H20. rewrite H20. cbn [Z.eqb Pos.eqb].
    unfold object, L_IpSiteConnectHeartbeat_PingPong. cbn [fields decode f_off f_kind f_name kwidth nwidth num rbind rmap].
    change (blen (B [90; 90; 90; 90])) with 4. change (blen (B [10; 0; 0; 0; 20])) with 5. change (blen (B [0; 0; 0])) with 3. change (blen (B [90; 89; 90; 0; 0; 0; 0])) with 7. norm_lits.
    repeat match goal with |- context [fits ?b ?k ?c] => rewrite (proj2 (fits_iff b k c)) by lia end. cbv zeta.
    assert (U : ubits b 96 8 = bz (zb (ubits b 96 8))).
    { rewrite bz_zb; [reflexivity|]. exact (ubits_bound b 96 8 ltac:(lia)). }
    assert (S : b = slice b 0 4 ++ slice b 4 5 ++ slice b 9 3 ++ [zb (ubits b 96 8)] ++ slice b 13 7).
    { change 96 with (8 * 12). rewrite <- slice_one by lia. clear U. do 20 (destruct b as [|? b]; [discriminate H20|]).
      destruct b; [reflexivity|exfalso; unfold blen in H20; cbn [List.length] in H20; lia]. }
    assert (P : forall n, b = ping_pong n -> slice b 0 4 = B [90; 90; 90; 90] /\ slice b 4 5 = B [10; 0; 0; 0; 20] /\ slice b 9 3 = B [0; 0; 0] /\ slice b 13 7 = B [90; 89; 90; 0; 0; 0; 0]).
    { intros n ->. repeat split. }
    destruct (bytes_eqb (slice b 0 4) _) eqn:E1; [|right; split; [intros n Hn; apply P in Hn; destruct Hn as [Hx _]; rewrite Hx, bytes_eqb_refl in E1; discriminate|do 3 eexists; reflexivity]].
    destruct (bytes_eqb (slice b 4 5) _) eqn:E2; [|right; split; [intros n Hn; apply P in Hn; destruct Hn as [_ [Hx _]]; rewrite Hx, bytes_eqb_refl in E2; discriminate|do 3 eexists; reflexivity]].
    destruct (bytes_eqb (slice b 9 3) _) eqn:E3; [|right; split; [intros n Hn; apply P in Hn; destruct Hn as [_ [_ [Hx _]]]; rewrite Hx, bytes_eqb_refl in E3; discriminate|do 3 eexists; reflexivity]].
    destruct (bytes_eqb (slice b 13 7) _) eqn:E4; [|right; split; [intros n Hn; apply P in Hn; destruct Hn as [_ [_ [_ Hx]]]; rewrite Hx, bytes_eqb_refl in E4; discriminate|do 3 eexists; reflexivity]].
    left. exists (zb (ubits b 96 8)). apply bytes_eqb_true in E1, E2, E3, E4. rewrite E1, E2, E3, E4 in S. split; [exact S|]. rewrite <- U. reflexivity.
Qed.
Print Assumptions C37_heartbeat_classification.
Example C37_case_ping : exists v, from_bytes (p_IpSiteConnectHeartbeat V010) (ping_pong (zb 7)) = Ok v /\
  exists d, getattr "data" v = Some d /\ getattr "heartbeat_seq" d = Some (VInt 7).
Proof. eexists. split; [vm_compute; reflexivity|]. eexists. split; vm_compute; reflexivity. Qed.
Example C37_case_bad : from_bytes (p_IpSiteConnectHeartbeat V011) (B [1]) = Err (ValidationNotEqualError (VBytes (B [0])) (VBytes (B [1])) "/types/keepalive/seq/0").
Proof. vm_compute. reflexivity. Qed.
Example C37_case_unknown : from_bytes (p_IpSiteConnectHeartbeat V011) (B []) = Ok (VObj "IpSiteConnectHeartbeat" [("data", VObj "IpSiteConnectHeartbeat.Unknown" [("data", VBytes (B []))])]).
Proof. vm_compute. reflexivity. Qed.

(** * C38 *)
(** the fixed header of an RTP packet: the list of the 32-bit contributing sources *)
Definition rtp_csrc (b : bytes) (n : Z) : list pyval := map (fun i => VInt (ubits b (96 + 32 * Z.of_nat i) 32)) (List.seq 0 (Z.to_nat n)).
Definition rtp_head (b : bytes) : pyval := VObj "RealTimeTransportProtocol.FixedHeader" [
  ("version", VInt 2); ("padding", VBool (bit b 2)); ("extension", VBool (bit b 3)); ("num_csrc", VInt (ubits b 4 4)); ("marker", VBool (bit b 8)); ("payload_type", VInt (ubits b 9 7));
  ("sequence_number", VInt (ubits b 16 16)); ("timestamp", VInt (ubits b 32 32)); ("ssrc", VInt (ubits b 64 32)); ("csrc", VList (rtp_csrc b (ubits b 4 4)))].
(** the 18-byte header extension at byte [k] *)
Definition rtp_extension (b : bytes) (k : Z) : pyval := VObj "RealTimeTransportProtocol.HeaderExtension" [
  ("header_identifier", VInt (ubits b (8 * k) 16)); ("length", VInt (ubits b (8 * k + 16) 16)); ("slot", VInt (ubits b (8 * k + 32) 7)); ("last_flag", VBool (bit b (8 * k + 39)));
  ("source_id", VObj "RadioId" [("radio_id_raw", VInt (le16 b (k + 5) + 65536 * le16 b (k + 7)))]);
  ("destination_id", VObj "RadioId" [("radio_id_raw", VInt (le16 b (k + 9) + 65536 * le16 b (k + 11)))]);
  ("call_type", resolve_enum RealTimeTransportProtocol_CallTypes (ubits b (8 * (k + 13)) 8)); ("reserved", VBytes (slice b (k + 14) 4))].
Lemma radio_id_ok b k : 0 <= k -> k + 4 <= blen b -> object "RadioId" L_RadioId b k = Ok (VObj "RadioId" [("radio_id_raw", VInt (le16 b k + 65536 * le16 b (k + 2)))]).
Proof.
  intros Hk Hl. unfold object, L_RadioId. cbn [fields decode f_off f_kind f_name kwidth nwidth num rbind rmap]. norm_lits. rewrite (proj2 (fits_iff b k 32)) by lia.
  cbn [rbind rmap]. rewrite Z.add_0_r, le32_slice by lia. reflexivity.
Qed.
Theorem C38_rtp_decoding : forall rt b,
  let n := ubits b 4 4 in
  let ext := bit b 3 in
  let p := 12 + 4 * n + (if ext then 18 else 0) in                          (* where the audio starts *)
  let pad := if bit b 2 then ubits b (8 * (blen b - 1)) 8 else 0 in         (* the last byte of the packet *)
  from_bytes (p_RealTimeTransportProtocol rt) b =
    if blen b <? 1 then Err EOFError
    else if negb (ubits b 0 2 =? 2) then Err (ValidationNotEqualError (VInt 2) (VInt (ubits b 0 2)) "/types/fixed_header/seq/0")
    else if blen b <? p then Err EOFError
    else if blen b <? p + pad then Err ValueError
    else Ok (VObj "RealTimeTransportProtocol"
       ([("fixed_header", rtp_head b)] ++
        (if ext then [("header_extension", rtp_extension b (p - 18))] else []) ++
        (if bit b 2 then [("_m_len_padding_if_exists", VInt pad)] else []) ++ [("_m_len_padding", VInt pad)] ++
        [("audio_data", VBytes (slice b p (blen b - p - pad)))] ++
        (if bit b 2 then [("padding", VBytes (rest b (blen b - pad)))] else []))).
Proof.
  intros rt b n ext p pad. rewrite rtp_meets. unfold rtp_spec, rtp_fixed_header. cbv zeta. pose proof (blen_nonneg b) as Hb. change (8 * 0) with 0. change (0 + 4) with 4. change (0 + 1) with 1. change (0 + 12) with 12.
  fold n. assert (Hn : 0 <= n < 16) by (subst n; exact (ubits_bound b 4 4 ltac:(lia))).
  destruct (Z.ltb_spec (blen b) 1); [reflexivity|]. destruct (negb (ubits b 0 2 =? 2)) eqn:V; [reflexivity|].
  assert (V' : ubits b 0 2 = 2) by lia.
  assert (H12 : fields b 0 L_rtp_fixed = if blen b <? 12 then Err EOFError else Ok [("version", VInt 2); ("padding", VBool (bit b 2)); ("extension", VBool (bit b 3)); ("num_csrc", VInt n); ("marker", VBool (bit b 8)); ("payload_type", VInt (ubits b 9 7));
     ("sequence_number", VInt (ubits b 16 16)); ("timestamp", VInt (ubits b 32 32)); ("ssrc", VInt (ubits b 64 32))]).
  { unfold L_rtp_fixed. destruct (Z.ltb_spec (blen b) 12); [apply short_table; [eoftable|reflexivity|lia|cbn; lia]|]. long_fields. rewrite V'. reflexivity. }
  rewrite H12. clear H12. destruct (Z.ltb_spec (blen b) 12).
  { cbn [rbind]. destruct (Z.ltb_spec (blen b) p); [reflexivity|]. subst p. destruct ext; lia. }
  cbn [rbind]. destruct (Z.ltb_spec (blen b) (12 + 4 * n)).
  { cbn [rbind]. destruct (Z.ltb_spec (blen b) p); [reflexivity|]. subst p. destruct ext; lia. }
  cbn [rbind fst snd app].
  assert (C : map (fun i => VInt (ubits b (8 * (12 + 4 * Z.of_nat i)) 32)) (List.seq 0 (Z.to_nat n)) = rtp_csrc b n).
  { unfold rtp_csrc. apply map_ext. intros i. do 2 f_equal. lia. }
  rewrite C. clear C. fold ext. subst p. 
  assert (X : part "header_extension" (if ext then Some (table "RealTimeTransportProtocol.HeaderExtension" L_RealTimeTransportProtocol_HeaderExtension) else None) b (12 + 4 * n) =
    if blen b <? 12 + 4 * n + (if ext then 18 else 0) then Err EOFError
    else Ok (if ext then [("header_extension", rtp_extension b (12 + 4 * n))] else [], 12 + 4 * n + (if ext then 18 else 0))).
  { set (k := 12 + 4 * n) in *. assert (0 <= k) by lia. clearbody k. destruct ext; cbn [part]. 
    - unfold table, L_RealTimeTransportProtocol_HeaderExtension. destruct (Z.ltb_spec (blen b) (k + 18)).
      + rewrite short_table; [reflexivity|eoftable|reflexivity|lia|cbn; lia].
      + cbn [fields decode f_off f_kind f_name kwidth nwidth num rbind rmap]. norm_lits.
        repeat match goal with |- context [fits ?b ?k ?c] => rewrite (proj2 (fits_iff b k c)) by lia end.
        rewrite !radio_id_ok by lia. match goal with |- context [fs_end ?l 0 / 8] => let m := eval vm_compute in (fs_end l 0 / 8) in change (fs_end l 0 / 8) with m end.
        cbn [rbind rmap fst snd]. unfold rtp_extension. rewrite Z.add_0_r.
        replace (k + 5 + 2) with (k + 7) by lia. replace (k + 9 + 2) with (k + 11) by lia. replace (8 * k + 104) with (8 * (k + 13)) by lia. reflexivity.
    - destruct (Z.ltb_spec (blen b) (k + 0)); [lia|]. rewrite Z.add_0_r. reflexivity. }
  rewrite X. clear X. replace (12 + 4 * n + (if ext then 18 else 0) - 18) with (if ext then 12 + 4 * n else 12 + 4 * n - 18) by (destruct ext; lia).
  set (p := 12 + 4 * n + (if ext then 18 else 0)).
  destruct (Z.ltb_spec (blen b) p); [reflexivity|]. cbn [rbind fst snd]. fold pad.
  destruct (Z.ltb_spec (blen b) (p + pad)); destruct (Z.ltb_spec (blen b - p) pad); try lia; [reflexivity|].
  unfold rtp_head. fold n ext. destruct ext; reflexivity.
Qed.
Print Assumptions C38_rtp_decoding.
(** what follows the headers is the audio followed by the padding, nothing lost, nothing twice *)
Theorem C38_rtp_partition : forall rt b v, from_bytes (p_RealTimeTransportProtocol rt) b = Ok v ->
  exists p audio, getattr "audio_data" v = Some (VBytes audio) /\ p = 12 + 4 * ubits b 4 4 + (if bit b 3 then 18 else 0) /\
  (bit b 2 = false -> getattr "padding" v = None /\ rest b p = audio) /\
  (bit b 2 = true -> exists pad, getattr "padding" v = Some (VBytes pad) /\ rest b p = audio ++ pad /\ blen pad = ubits b (8 * (blen b - 1)) 8).
Proof.
  intros rt b v H. rewrite C38_rtp_decoding in H. cbv zeta in H. set (p := 12 + 4 * ubits b 4 4 + (if bit b 3 then 18 else 0)) in *.
  assert (Hp : 12 <= p). { subst p. pose proof (ubits_bound b 4 4 ltac:(lia)). destruct (bit b 3); lia. }
  exists p. destruct (blen b <? 1); [discriminate|]. destruct (negb _); [discriminate|]. destruct (Z.ltb_spec (blen b) p); [discriminate|].
  destruct (bit b 2).
  - set (n := ubits b (8 * (blen b - 1)) 8) in *. assert (Hn : 0 <= n) by (subst n; pose proof (ubits_bound b (8 * (blen b - 1)) 8 ltac:(lia)); lia).
    destruct (Z.ltb_spec (blen b) (p + n)); [discriminate|].
    exists (slice b p (blen b - p - n)). assert (E : v = VObj "RealTimeTransportProtocol" _) by (symmetry; injection H; intro X; exact X). rewrite E. clear E H.
    split; [destruct (bit b 3); reflexivity|]. split; [reflexivity|]. split; [discriminate|]. intros _. exists (rest b (blen b - n)).
    split; [destruct (bit b 3); reflexivity|]. split.
    + replace (blen b - p - n) with ((blen b - n) - p) by lia. apply split_at. lia.
    + unfold rest, blen in *. rewrite skipn_length. lia.
  - assert (Hl : blen b <? p + 0 = false) by lia. rewrite Hl in H. exists (slice b p (blen b - p - 0)).
    assert (E : v = VObj "RealTimeTransportProtocol" _) by (symmetry; injection H; intro X; exact X). rewrite E. clear E H.
    split; [destruct (bit b 3); reflexivity|]. split; [reflexivity|]. split; [|discriminate]. intros _. split; [destruct (bit b 3); reflexivity|].
    rewrite slice_rest. unfold rest. symmetry. apply firstn_all2. rewrite skipn_length. unfold blen in *. lia.
Qed.
Print Assumptions C38_rtp_partition.
Example C38_case : exists v, from_bytes (p_RealTimeTransportProtocol V010)
    (B ([0xb1; 0x5d; 0; 1; 0; 0; 0; 2; 0; 0; 0; 3; 0; 0; 0; 4; 0; 0x15; 0; 3; 0; 1; 0; 0; 0; 2; 0; 0; 0; 1; 0; 0; 0; 0; 0xaa; 0xbb; 0; 0; 3])) = Ok v /\
  getattr "audio_data" v = Some (VBytes (B [0xaa; 0xbb])) /\ getattr "padding" v = Some (VBytes (B [0; 0; 3])).
Proof. eexists. split; [vm_compute; reflexivity|]. vm_compute. repeat split; reflexivity. Qed.
Example C38_case_overlong : from_bytes (p_RealTimeTransportProtocol V011) (B [0xa0; 0; 0; 0; 0; 0; 0; 0; 0; 0; 0; 0; 7; 9]) = Err ValueError.
Proof. vm_compute. reflexivity. Qed.
Example C38_case_v1 : from_bytes (p_RealTimeTransportProtocol V011) (B [0x40]) = Err (ValidationNotEqualError (VInt 2) (VInt 1) "/types/fixed_header/seq/0").
Proof. vm_compute. reflexivity. Qed.
