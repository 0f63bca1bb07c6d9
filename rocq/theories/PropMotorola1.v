(** Properties C39 - C41 (see properties.jsonl): Motorola registration and text messages. *)
From Verif Require Import PyBase Runtime Codec CodecSpec CodecProofs Enums EnumProofs Getters Spec DecSpec BitSpec RuntimeProofs TilesProofs DecProofs DecAlgebra GetterProofs EtsiCor HomebrewCor HyteraModel HyteraSpec HyteraCor HyteraCor2 MotorolaModel MotorolaSpec MotorolaProofs PropHytera1 HyteraCor3 PropHytera2.
From Coq Require Import ZifyBool.
Ltac Zify.zify_post_hook ::= Z.div_mod_to_equations.
Open Scope string_scope.
Open Scope list_scope.
Open Scope Z_scope.

(** * C39 *)
(** a length byte and that many bytes, and the attributes they give *)
Definition lv (x : bytes) : bytes := zb (blen x) :: x.
Definition lv_attrs (len name : string) (x : bytes) : attrs := (len, VInt (blen x)) :: match x with [] => [] | _ => [(name, VBytes x)] end.

Lemma blen_lv x : blen (lv x) = 1 + blen x.
Proof. apply blen_cons. Qed.
Lemma sized_lv len name p x t : blen x < 256 -> sized len name (p ++ lv x ++ t) (blen p) = Ok (lv_attrs len name x, blen p + blen (lv x)).
Proof.
  intros Hx. pose proof (blen_nonneg x). pose proof (blen_nonneg t). pose proof (blen_nonneg p). unfold sized. rewrite !blen_app, blen_lv.
  destruct (Z.ltb_spec (blen p + (1 + blen x + blen t)) (blen p + 1)); [lia|].
  assert (E : ubits (p ++ lv x ++ t) (8 * blen p) 8 = blen x).
  { rewrite <- (Z.add_0_r (8 * blen p)), ubits_shift by lia. change 0 with (8 * 0). rewrite ubits_byte by lia. cbn [lv app nth Z.to_nat]. apply bz_zb. lia. }
  rewrite E. unfold bytes_at. destruct (Z.ltb_spec (blen x) 0); [lia|]. rewrite !blen_app, blen_lv. destruct (Z.leb_spec (blen p + 1 + blen x) (blen p + (1 + blen x + blen t))); [|lia].
  cbn [rbind].
  assert (S : slice (p ++ lv x ++ t) (blen p + 1) (blen x) = x).
  { replace (p ++ lv x ++ t) with ((p ++ [zb (blen x)]) ++ x ++ t) by (rewrite <- app_assoc; reflexivity).
    replace (blen p + 1) with (blen (p ++ [zb (blen x)])) by (rewrite blen_app; reflexivity). apply slice_mid. }
  rewrite S. unfold lv_attrs. f_equal. f_equal; [|lia]. f_equal. destruct x as [|y x]; [reflexivity|]. rewrite blen_cons. pose proof (blen_nonneg x). destruct (Z.eqb_spec (1 + blen x) 0); [lia|reflexivity].
Qed.
Lemma sized_inv len name b k a e : 0 <= k -> sized len name b k = Ok (a, e) ->
  exists x, blen x < 256 /\ a = lv_attrs len name x /\ rest b k = lv x ++ rest b e /\ k < e <= blen b.
Proof.
  intros Hk. unfold sized. destruct (Z.ltb_spec (blen b) (k + 1)) as [|L]; [discriminate|]. pose proof (ubits_bound b (8 * k) 8 ltac:(lia)) as Hn. change (2 ^ 8) with 256 in Hn.
  set (n := ubits b (8 * k) 8) in *. unfold bytes_at. destruct (Z.ltb_spec n 0); [lia|]. destruct (Z.leb_spec (k + 1 + n) (blen b)); [|discriminate]. cbn [rbind]. intros E.
  assert (Ea : a = ("_", VNone) :: [] \/ a = (len, VInt n) :: (if n =? 0 then [] else [(name, VBytes (slice b (k + 1) n))])) by (right; congruence).
  destruct Ea as [Ea|Ea]; [exfalso; congruence|]. assert (Ee : e = k + 1 + n) by congruence. clear E. subst a e.
  exists (slice b (k + 1) n). assert (Hl : blen (slice b (k + 1) n) = n) by (apply blen_slice; lia). split; [lia|]. split; [|split; [|lia]].
  - unfold lv_attrs. rewrite Hl. f_equal. destruct (Z.eqb_spec n 0) as [N|N].
    + rewrite N in Hl |- *. destruct (slice b (k + 1) 0) as [|y l]; [reflexivity|]. rewrite blen_cons in Hl. pose proof (blen_nonneg l). lia.
    + destruct (slice b (k + 1) n) as [|y l]; [exfalso; apply N; rewrite <- Hl; reflexivity|reflexivity].
  - unfold lv. rewrite Hl. cbn [app]. rewrite rest_cons by lia.
    assert (B0 : bz (nth (Z.to_nat k) b Byte.x00) = n) by (subst n; rewrite ubits_byte by lia; reflexivity).
    rewrite <- B0 at 1. rewrite zb_bz. f_equal. replace n with ((k + 1 + n) - (k + 1)) at 1 by lia. apply split_at. lia.
Qed.

(** The first three bytes. *)
Definition ars_head (b : bytes) : attrs := [("message_size", VInt (le16 b 0)); ("message_header", VObj "AutomaticRegistrationService.MessageHeaderBits"
  [("extension_bit", VBool (bit b 16)); ("acknowledgement_bit", VBool (bit b 17)); ("priority", VBool (bit b 18)); ("control_user_bit", VBool (bit b 19)); ("pdu_type", VInt (ubits b 20 4))])].
Lemma ars_fields b : fields b 0 L_AutomaticRegistrationService = if blen b <? 3 then Err EOFError else Ok (ars_head b).
Proof.
  pose proof (blen_nonneg b). unfold L_AutomaticRegistrationService. destruct (Z.ltb_spec (blen b) 3).
  - apply short_table; [eoftable|reflexivity|lia|cbn; lia].
  - cbn [fields decode f_off f_kind f_name kwidth nwidth num rbind rmap]. norm_lits. rewrite (proj2 (fits_iff b 0 16)) by lia.
    unfold object, L_AutomaticRegistrationService_MessageHeaderBits. change (0 + 2) with 2.
    cbn [fields decode f_off f_kind f_name kwidth nwidth num rbind rmap]. norm_lits.
    repeat match goal with |- context [fits ?b ?k ?c] => rewrite (proj2 (fits_iff b k c)) by lia end. cbn [rbind rmap]. change (0 + 0) with 0. rewrite le16_slice by lia. reflexivity.
Qed.
Theorem C39_ars_decoding : forall rt b, from_bytes (p_AutomaticRegistrationService rt) b = ars_spec b.
Proof. intros. apply ars_meets. Qed.
Print Assumptions C39_ars_decoding.

(** optional second header byte of a registration, present iff the extension bit *)
Definition reg_header (h2 : option byte) : attrs := match h2 with None => [] | Some h => [("device_registration_message_header", VObj "AutomaticRegistrationService.DeviceRegistrationMessageHeader"
  [("extension_bit", VBool (bit [h] 0)); ("event", resolve_enum AutomaticRegistrationService_RegistrationEvents (ubits [h] 1 2)); ("encoding", VInt (ubits [h] 3 5))])] end.
Definition opt_byte (h : option byte) : bytes := match h with None => [] | Some x => [x] end.
(** a registration message *)
Definition ars_registration_message (s0 s1 h : byte) (h2 : option byte) (dev usr pwd tail : bytes) : bytes :=
  [s0; s1; h] ++ opt_byte h2 ++ lv dev ++ lv usr ++ lv pwd ++ tail.
Definition ars_registration_object (b : bytes) (h2 : option byte) (dev usr pwd tail : bytes) : pyval :=
  VObj "AutomaticRegistrationService" (ars_head b ++ [("pdu_content", VObj "AutomaticRegistrationService.DeviceRegistrationMessage"
    (reg_header h2 ++ lv_attrs "len_device_identifier" "device_identifier" dev ++ lv_attrs "len_user_identifier" "user_identifier" usr ++ lv_attrs "len_password" "password" pwd));
    ("unparsed_data", VBytes tail)]).
(** Every such message decodes to exactly its parts ... *)
Lemma reg_header_part p h2 t ext : ext = (match h2 with Some _ => true | None => false end) ->
  part "device_registration_message_header" (if ext then Some (table "AutomaticRegistrationService.DeviceRegistrationMessageHeader" L_AutomaticRegistrationService_DeviceRegistrationMessageHeader) else None)
    (p ++ opt_byte h2 ++ t) (blen p) = Ok (reg_header h2, blen p + blen (opt_byte h2)).
Proof.
  intros ->. pose proof (blen_nonneg p). pose proof (blen_nonneg t). destruct h2 as [h|]; cbn [part opt_byte app].
  - unfold table, L_AutomaticRegistrationService_DeviceRegistrationMessageHeader. cbn [fields decode f_off f_kind f_name kwidth nwidth num rbind rmap]. norm_lits.
    assert (L : blen (p ++ h :: t) = blen p + 1 + blen t) by (rewrite blen_app, blen_cons; lia).
    repeat match goal with |- context [fits ?b ?k ?c] => rewrite (proj2 (fits_iff b k c)) by lia end. cbn [rbind rmap fst snd].
    rewrite !ubits_shift, bit_shift by lia.
    rewrite !(agree_ubits 1 (h :: t) [h]), (agree_bit 1 (h :: t) [h]) by (lia || (apply agree_sym; change (h :: t) with ([h] ++ t); apply (agree_app [h] t))). reflexivity.
  - rewrite Z.add_0_r. reflexivity.
Qed.
Theorem C39_registration : forall rt s0 s1 h h2 dev usr pwd tail,
  let b := ars_registration_message s0 s1 h h2 dev usr pwd tail in
  ubits b 20 4 = 0 -> bit b 16 = (match h2 with Some _ => true | None => false end) -> blen dev < 256 -> blen usr < 256 -> blen pwd < 256 ->
  from_bytes (p_AutomaticRegistrationService rt) b = Ok (ars_registration_object b h2 dev usr pwd tail).
Proof.
  intros rt s0 s1 h h2 dev usr pwd tail b H0 He Hd Hu Hp. rewrite ars_meets. unfold ars_spec. rewrite ars_fields. pose proof (blen_nonneg tail).
  assert (L : 3 <= blen b). { unfold b, ars_registration_message. rewrite blen_app. match goal with |- context [blen ?x + blen ?y] => pose proof (blen_nonneg y); change (blen x) with 3 end. lia. }
  destruct (Z.ltb_spec (blen b) 3); [lia|]. cbn [rbind]. rewrite H0.
  unfold ars_bodies. cbn [select Z.eqb]. unfold part at 1, ars_registration.
  assert (P : part "device_registration_message_header" (if bit b 16 then Some (table "AutomaticRegistrationService.DeviceRegistrationMessageHeader" L_AutomaticRegistrationService_DeviceRegistrationMessageHeader) else None) b 3
    = Ok (reg_header h2, 3 + blen (opt_byte h2))) by (apply (reg_header_part [s0; s1; h] h2 (lv dev ++ lv usr ++ lv pwd ++ tail)); exact He).
  rewrite P. clear P. cbn [rbind fst snd].
  set (q := [s0; s1; h] ++ opt_byte h2).
  assert (Eb : b = q ++ lv dev ++ lv usr ++ lv pwd ++ tail) by (unfold b, ars_registration_message, q; rewrite <- app_assoc; reflexivity).
  assert (Eq : blen q = 3 + blen (opt_byte h2)) by (unfold q; rewrite blen_app; reflexivity). rewrite <- Eq.
  assert (S1 : sized "len_device_identifier" "device_identifier" b (blen q) = Ok (lv_attrs "len_device_identifier" "device_identifier" dev, blen (q ++ lv dev))) by (rewrite Eb, sized_lv, blen_app by assumption; reflexivity).
  assert (S2 : sized "len_user_identifier" "user_identifier" b (blen (q ++ lv dev)) = Ok (lv_attrs "len_user_identifier" "user_identifier" usr, blen ((q ++ lv dev) ++ lv usr))).
  { rewrite Eb. replace (q ++ lv dev ++ lv usr ++ lv pwd ++ tail) with ((q ++ lv dev) ++ lv usr ++ lv pwd ++ tail) by (rewrite <- !app_assoc; reflexivity). rewrite sized_lv, (blen_app (q ++ lv dev)) by assumption. reflexivity. }
  assert (S3 : sized "len_password" "password" b (blen ((q ++ lv dev) ++ lv usr)) = Ok (lv_attrs "len_password" "password" pwd, blen (((q ++ lv dev) ++ lv usr) ++ lv pwd))).
  { rewrite Eb. replace (q ++ lv dev ++ lv usr ++ lv pwd ++ tail) with (((q ++ lv dev) ++ lv usr) ++ lv pwd ++ tail) by (rewrite <- !app_assoc; reflexivity). rewrite sized_lv, (blen_app ((q ++ lv dev) ++ lv usr)) by assumption. reflexivity. }
  rewrite S1. cbn [rbind fst snd]. rewrite S2. cbn [rbind fst snd]. rewrite S3. cbn [rbind fst snd]. unfold ars_registration_object. do 5 f_equal. 
  rewrite Eb. replace (q ++ lv dev ++ lv usr ++ lv pwd ++ tail) with ((((q ++ lv dev) ++ lv usr) ++ lv pwd) ++ tail) by (rewrite <- !app_assoc; reflexivity).
  unfold rest, blen. rewrite Nat2Z.id, skipn_app, skipn_all, Nat.sub_diag. reflexivity.
Qed.
Print Assumptions C39_registration.
(** ... and every registration that decodes is such a message: nothing of it is dropped. *)
Theorem C39_registration_complete : forall rt b v, from_bytes (p_AutomaticRegistrationService rt) b = Ok v -> ubits b 20 4 = 0 ->
  exists s0 s1 h h2 dev usr pwd tail, b = ars_registration_message s0 s1 h h2 dev usr pwd tail /\
    bit b 16 = (match h2 with Some _ => true | None => false end) /\ blen dev < 256 /\ blen usr < 256 /\ blen pwd < 256 /\
    v = ars_registration_object b h2 dev usr pwd tail.
Proof.
  intros rt b v H H0.
  assert (X : exists s0 s1 h h2 dev usr pwd tail, b = ars_registration_message s0 s1 h h2 dev usr pwd tail /\
    bit b 16 = (match h2 with Some _ => true | None => false end) /\ blen dev < 256 /\ blen usr < 256 /\ blen pwd < 256).
  { rewrite ars_meets in H. unfold ars_spec in H. rewrite ars_fields in H. destruct (Z.ltb_spec (blen b) 3) as [|L]; [discriminate|]. cbn [rbind] in H. rewrite H0 in H.
    unfold ars_bodies in H. cbn [select Z.eqb] in H. unfold part at 1, ars_registration in H.
    destruct b as [|s0 [|s1 [|h t]]]; try (exfalso; unfold blen in L; cbn [List.length] in L; lia). exists s0, s1, h.
    set (b := s0 :: s1 :: h :: t) in *.
    assert (P : part "device_registration_message_header" (if bit b 16 then Some (table "AutomaticRegistrationService.DeviceRegistrationMessageHeader" L_AutomaticRegistrationService_DeviceRegistrationMessageHeader) else None) b 3 = Err EOFError \/
       exists h2 t', t = opt_byte h2 ++ t' /\ bit b 16 = (match h2 with Some _ => true | None => false end) /\
        part "device_registration_message_header" (if bit b 16 then Some (table "AutomaticRegistrationService.DeviceRegistrationMessageHeader" L_AutomaticRegistrationService_DeviceRegistrationMessageHeader) else None) b 3 = Ok (reg_header h2, 3 + blen (opt_byte h2))).
    { destruct (bit b 16) eqn:E.
      - destruct t as [|x t]; [left|right].
        + cbn [part]. unfold table, L_AutomaticRegistrationService_DeviceRegistrationMessageHeader. rewrite short_table; [reflexivity|eoftable|reflexivity|lia|cbn; lia].
        + exists (Some x), t. split; [reflexivity|]. split; [reflexivity|]. exact (reg_header_part [s0; s1; h] (Some x) t true eq_refl).
      - right. exists None, t. split; [reflexivity|]. split; [reflexivity|]. reflexivity. }
    destruct P as [P|[h2 [t' [Et [Ee P]]]]]; [rewrite P in H; discriminate|]. rewrite P in H. clear P. cbn [rbind fst snd] in H. exists h2.
    set (k0 := 3 + blen (opt_byte h2)) in *. assert (K0 : 0 <= k0) by (pose proof (blen_nonneg (opt_byte h2)); lia).
    destruct (sized "len_device_identifier" _ b k0) as [[a1 k1]|] eqn:S1; [|discriminate]. cbn [rbind fst snd] in H.
    destruct (sized "len_user_identifier" _ b k1) as [[a2 k2]|] eqn:S2; [|discriminate]. cbn [rbind fst snd] in H.
    destruct (sized "len_password" _ b k2) as [[a3 k3]|] eqn:S3; [|discriminate]. clear H.
    apply sized_inv in S1 as [dev [D1 [_ [R1 B1]]]]; [|assumption]. apply sized_inv in S2 as [usr [D2 [_ [R2 B2]]]]; [|lia]. apply sized_inv in S3 as [pwd [D3 [_ [R3 B3]]]]; [|lia].
    exists dev, usr, pwd, (rest b k3). split; [|auto]. unfold ars_registration_message.
    rewrite <- R3, <- R2, <- R1. subst b. rewrite Et. cbn [app]. do 3 f_equal. f_equal.
    change (s0 :: s1 :: h :: opt_byte h2 ++ t') with (([s0; s1; h] ++ opt_byte h2) ++ t'). replace k0 with (blen ([s0; s1; h] ++ opt_byte h2)) by (rewrite blen_app; reflexivity).
    unfold rest, blen. rewrite Nat2Z.id, skipn_app, skipn_all, Nat.sub_diag. reflexivity. }
  destruct X as (s0 & s1 & h & h2 & dev & usr & pwd & tail & Eb & He & Hd & Hu & Hp). exists s0, s1, h, h2, dev, usr, pwd, tail.
  split; [exact Eb|]. split; [exact He|]. split; [exact Hd|]. split; [exact Hu|]. split; [exact Hp|].
  rewrite Eb in H, H0, He |- *. pose proof (C39_registration rt s0 s1 h h2 dev usr pwd tail H0 He Hd Hu Hp) as R. cbv zeta in R. congruence.
Qed.
Print Assumptions C39_registration_complete.
(** The other message types: no content but, for type 15 with the extension bit, one more header byte. *)
Theorem C39_other_messages : forall rt b, 3 <= blen b -> ubits b 20 4 <> 0 ->
  let t := ubits b 20 4 in
  from_bytes (p_AutomaticRegistrationService rt) b =
  let result content n := Ok (VObj "AutomaticRegistrationService" (ars_head b ++ content ++ [("unparsed_data", VBytes (rest b n))])) in
  if t =? 1 then result [("pdu_content", VObj "AutomaticRegistrationService.DeviceDeregistrationMessage" [])] 3
  else if t =? 4 then result [("pdu_content", VObj "AutomaticRegistrationService.ArsQueryMessage" [])] 3
  else if t =? 15 then
    if bit b 16 then
      if blen b <? 4 then Err EOFError else
      result [("pdu_content", VObj "AutomaticRegistrationService.AcknowledgementMessage"
        (if bit b 17 then [("device_registration_acknowledgement_header", VObj "AutomaticRegistrationService.DeviceRegistrationAcknowledgementHeader"
            [("extension_bit", VBool (bit b 24)); ("refresh_time", VInt (ubits b 25 7))])]
         else [("device_registration_acknowledgement_failure_reason", VObj "AutomaticRegistrationService.DeviceRegistrationAcknowledgementFailureReason"
            [("extension_bit", VBool (bit b 24)); ("failure_reason", resolve_enum AutomaticRegistrationService_FailureReasons (ubits b 25 7))])]))] 4
    else result [("pdu_content", VObj "AutomaticRegistrationService.AcknowledgementMessage" [])] 3
  else result [] 3.
Proof.
  intros rt b L N t. rewrite ars_meets. unfold ars_spec. rewrite ars_fields. destruct (Z.ltb_spec (blen b) 3); [lia|]. cbn [rbind]. fold t in N |- *. cbv zeta.
  unfold ars_bodies. cbn [select]. rewrite (proj2 (Z.eqb_neq t 0)) by assumption. clearbody t.
  destruct (t =? 1); [reflexivity|]. destruct (t =? 4); [reflexivity|]. destruct (t =? 15); [|reflexivity].
  unfold part at 1, ars_acknowledgement. destruct (bit b 16); cbn [andb]; [|reflexivity].
  destruct (bit b 17); cbn [part]; unfold table, L_AutomaticRegistrationService_DeviceRegistrationAcknowledgementHeader, L_AutomaticRegistrationService_DeviceRegistrationAcknowledgementFailureReason.
  all: match goal with |- context [blen ?b <? 4] => destruct (Z.ltb_spec (blen b) 4) end.
  1,3: rewrite short_table; [reflexivity|eoftable|reflexivity|lia|cbn; lia].
  all: cbn [fields decode f_off f_kind f_name kwidth nwidth num rbind rmap]; norm_lits;
    repeat match goal with |- context [fits ?b ?k ?c] => rewrite (proj2 (fits_iff b k c)) by lia end; reflexivity.
Qed.
Print Assumptions C39_other_messages.
Theorem C39_short : forall rt b, blen b < 3 -> from_bytes (p_AutomaticRegistrationService rt) b = Err EOFError.
Proof. intros rt b L. rewrite ars_meets. unfold ars_spec. rewrite ars_fields. destruct (Z.ltb_spec (blen b) 3); [reflexivity|lia]. Qed.
Print Assumptions C39_short.
Example C39_case : let b := ars_registration_message (zb 10) (zb 0) (zb 0xf0) (Some (zb 0x20)) (blit "2308155") [] (blit "pw") (B [9; 9]) in
  ubits b 20 4 = 0 /\ bit b 16 = true /\ exists v d, from_bytes (p_AutomaticRegistrationService V011) b = Ok v /\ getattr "pdu_content" v = Some d /\
  getattr "device_identifier" d = Some (VBytes (blit "2308155")) /\ getattr "user_identifier" d = None /\ getattr "unparsed_data" v = Some (VBytes (B [9; 9])).
Proof. split; [vm_compute; reflexivity|]. split; [vm_compute; reflexivity|]. do 2 eexists. split; [vm_compute; reflexivity|]. split; [vm_compute; reflexivity|]. vm_compute. repeat split; reflexivity. Qed.
Example C39_case_ack : exists v d x, from_bytes (p_AutomaticRegistrationService V010) (B [2; 0; 0xbf; 1]) = Ok v /\ getattr "pdu_content" v = Some d /\
  getattr "device_registration_acknowledgement_failure_reason" d = Some x /\ getattr "device_registration_acknowledgement_header" d = None.
Proof. do 3 eexists. split; [vm_compute; reflexivity|]. split; [vm_compute; reflexivity|]. split; vm_compute; reflexivity. Qed.

(** * C40 *)
(** the first three bytes *)
Definition tmp_head (b : bytes) : attrs := [("message_size", VInt (ubits b 0 16)); ("message_header", VObj "TextMessageProtocol.MessageHeaderBits"
  [("extension_bit", VBool (bit b 16)); ("acknowledgement_required", VBool (bit b 17)); ("reserved", VBool (bit b 18)); ("control_user_bit", VBool (bit b 19)); ("pdu_type", VInt (ubits b 20 4))])].
(** the 6-bit content type *)
Definition content_type (b : bytes) : Z := 32 * Z.b2z (bit b 17) + 16 * Z.b2z (bit b 19) + ubits b 20 4.
(** the content (attribute if any, and what is left over), from what follows the address *)
Definition pdu_content (cls : string) (a : attrs) : attrs := [("pdu_content", VObj ("TextMessageProtocol." ++ cls) a)].
Definition text_header (m : bytes) : attrs :=
  [("has_encoding_header", VBool (bit m 0)); ("reserved_1", VInt (ubits m 1 2)); ("sequence_number_lsb_bits", VInt (ubits m 3 5))] ++
  (if bit m 0 then [("header_encoding_extension", VBool (bit m 8)); ("sequence_number_msb_bits", VInt (ubits m 9 2)); ("encoding", VInt (ubits m 11 5))] else [("encoding", VInt (ubits m 8 5))]).
Definition ack_header (m : bytes) : attrs :=
  [("has_msb_header", VBool (bit m 0)); ("header_lsb_reserved", VInt (ubits m 1 2)); ("header_lsb_bits", VInt (ubits m 3 5))] ++
  (if bit m 0 then [("header_msb_extension", VBool (bit m 8)); ("header_msb_bits", VInt (ubits m 9 2)); ("header_msb_reserved", VInt (ubits m 11 5))] else []).
Definition tmp_text (header : attrs) (text : bytes) : res (attrs * bytes) :=
  match decode_text UTF16LE text with
  | Some s => Ok (pdu_content "TextMessage" (header ++ [("text_message", VStr s)]), [])
  | None => Err (UnicodeDecodeError (enc_name UTF16LE))
  end.
Definition tmp_content (type : Z) (ext : bool) (m : bytes) : res (attrs * bytes) :=
  if type =? 48 then
    if ext then
      if blen m <? 1 then Err EOFError else
      Ok (pdu_content "TmsServiceAvailability" [("header", VObj "TextMessageProtocol.TmsServiceAvailabilityHeader"
        [("extension_bit", VBool (bit m 0)); ("reserved", VInt (ubits m 1 4)); ("device", resolve_enum MotTextMessageProtocol_TmsServiceCapability (ubits m 5 3))])], rest m 1)
    else Ok (pdu_content "TmsServiceAvailability" [], m)
  else if type =? 31 then
    if ext then
      let n := if bit m 0 then 2 else 1 in
      if blen m <? n then Err EOFError else
      Ok (pdu_content "TmsAcknowledgement" [("tms_acknowledgement_header_sequence_number", VObj "TextMessageProtocol.TmsAcknowledgementHeaderSequenceNumber" (ack_header m))], rest m n)
    else Ok (pdu_content "TmsAcknowledgement" [], m)
  else if (type =? 0) || (type =? 32) then
    if ext then
      if blen m <? 2 then Err EOFError else
      tmp_text [("text_message_header_sequence_and_encoding", VObj "TextMessageProtocol.TextMessageHeaderSequenceAndEncoding" (text_header m))] (rest m 2)
    else tmp_text [] m
  else Ok ([], m).
Lemma tmp_fields b : fields b 0 L_MotTextMessageProtocol = if blen b <? 3 then Err EOFError else Ok (tmp_head b).
Proof.
  pose proof (blen_nonneg b). unfold L_MotTextMessageProtocol. destruct (Z.ltb_spec (blen b) 3).
  - apply short_table; [eoftable|reflexivity|lia|cbn; lia].
  - cbn [fields decode f_off f_kind f_name kwidth nwidth num rbind rmap]. norm_lits. rewrite (proj2 (fits_iff b 0 16)) by lia.
    unfold object, L_MotTextMessageProtocol_MessageHeaderBits. change (0 + 2) with 2.
    cbn [fields decode f_off f_kind f_name kwidth nwidth num rbind rmap]. norm_lits.
    repeat match goal with |- context [fits ?b ?k ?c] => rewrite (proj2 (fits_iff b k c)) by lia end. reflexivity.
Qed.
Lemma rest_app p m : rest (p ++ m) (blen p) = m.
Proof. unfold rest, blen. rewrite Nat2Z.id, skipn_app, skipn_all, Nat.sub_diag. reflexivity. Qed.
Lemma rest_shift p m k : 0 <= k -> rest (p ++ m) (blen p + k) = rest m k.
Proof.
  intros Hk. unfold rest, blen. rewrite skipn_app, (skipn_all2 p) by lia. cbn [app]. f_equal. lia.
Qed.
Lemma bit_empty i : bit [] i = false.
Proof. unfold bit. destruct (Z.to_nat (i / 8)); apply Z.testbit_0_l. Qed.
Lemma ubits_1_bit b o : ubits b o 1 = Z.b2z (bit b o).
Proof. apply ubits_1. Qed.
Lemma part_content ext type p m : 
  (let* d := part "pdu_content" (select type (mot_bodies ext)) (p ++ m) (blen p) in Ok (fst d, rest (p ++ m) (snd d))) = tmp_content type ext m.
Proof.
  unfold mot_bodies, tmp_content. cbn [select]. pose proof (blen_nonneg m) as Hm. pose proof (blen_nonneg p) as Hp.
  assert (L : blen (p ++ m) = blen p + blen m) by apply blen_app.
  destruct (type =? 48); [|destruct (type =? 31); [|]].
  - unfold part at 1, mot_availability. destruct ext; [|cbn [part rbind fst snd]; rewrite rest_app; reflexivity].
    cbn [part]. unfold table, L_MotTextMessageProtocol_TmsServiceAvailabilityHeader. destruct (Z.ltb_spec (blen m) 1).
    + rewrite short_table; [reflexivity|eoftable|reflexivity|lia|cbn; lia].
    + cbn [fields decode f_off f_kind f_name kwidth nwidth num rbind rmap]. norm_lits.
      repeat match goal with |- context [fits ?b ?k ?c] => rewrite (proj2 (fits_iff b k c)) by lia end. cbn [rbind rmap fst snd fs_end f_off f_kind kwidth nwidth]. change (fs_end _ 0 / 8) with 1.
      rewrite !ubits_shift, bit_shift, rest_shift by lia. reflexivity.
  - unfold part at 1, mot_acknowledgement. destruct ext; [|cbn [part rbind fst snd]; rewrite rest_app; reflexivity].
    cbn [part]. unfold table. replace (bit (p ++ m) (8 * blen p)) with (bit m 0) by (rewrite <- (Z.add_0_r (8 * blen p)), bit_shift by lia; reflexivity).
    unfold ack_header, L_mot_ack_header. destruct (bit m 0) eqn:E0.
    + cbn [app]. destruct (Z.ltb_spec (blen m) 2).
      * rewrite short_table; [reflexivity|eoftable|reflexivity|lia|cbn; lia].
      * cbn [fields decode f_off f_kind f_name kwidth nwidth num rbind rmap]. norm_lits.
        repeat match goal with |- context [fits ?b ?k ?c] => rewrite (proj2 (fits_iff b k c)) by lia end. cbn [rbind rmap fst snd fs_end f_off f_kind kwidth nwidth]. 
        rewrite !ubits_shift, !bit_shift, rest_shift, E0 by lia. reflexivity.
    + cbn [app]. destruct (Z.ltb_spec (blen m) 1).
      * rewrite short_table; [reflexivity|eoftable|reflexivity|lia|cbn; lia].
      * cbn [fields decode f_off f_kind f_name kwidth nwidth num rbind rmap]. norm_lits.
        repeat match goal with |- context [fits ?b ?k ?c] => rewrite (proj2 (fits_iff b k c)) by lia end. cbn [rbind rmap fst snd fs_end f_off f_kind kwidth nwidth]. 
        rewrite !ubits_shift, !bit_shift, rest_shift, E0 by lia. reflexivity.
  - replace (if type =? 0 then Some (mot_text ext) else if type =? 32 then Some (mot_text ext) else None) with (if (type =? 0) || (type =? 32) then Some (mot_text ext) else None)
      by (destruct (type =? 0), (type =? 32); reflexivity).
    destruct ((type =? 0) || (type =? 32)); [|cbn [part rbind fst snd]; rewrite rest_app; reflexivity].
    cbn [part]. unfold mot_text, tmp_text. 
    assert (T : forall a x, (let* d := let* r := match decode_text UTF16LE x with Some s => Ok (VObj "TextMessageProtocol.TextMessage" (a ++ [("text_message", VStr s)]), blen (p ++ m)) | None => Err (UnicodeDecodeError (enc_name UTF16LE)) end in
        Ok ([("pdu_content", fst r)], snd r) in Ok (fst d, rest (p ++ m) (snd d))) = 
       match decode_text UTF16LE x with Some s => Ok (pdu_content "TextMessage" (a ++ [("text_message", VStr s)]), []) | None => Err (UnicodeDecodeError (enc_name UTF16LE)) end).
    { intros a x. destruct (decode_text UTF16LE x); [|reflexivity]. cbn [rbind fst snd]. rewrite rest_nil by lia. reflexivity. }
    destruct ext; [|cbn [rbind fst snd]; rewrite rest_app; apply T].
    replace (bit (p ++ m) (8 * blen p)) with (bit m 0) by (rewrite <- (Z.add_0_r (8 * blen p)), bit_shift by lia; reflexivity).
    assert (E : fields (p ++ m) (blen p) (L_mot_text_header (bit m 0)) = if blen m <? 2 then Err EOFError else Ok (text_header m)).
    { unfold text_header, L_mot_text_header. destruct (bit m 0) eqn:E0; cbn [app].
      - destruct (Z.ltb_spec (blen m) 2); [apply short_table; [eoftable|reflexivity|lia|cbn; lia]|].
        cbn [fields decode f_off f_kind f_name kwidth nwidth num rbind rmap]. norm_lits.
        repeat match goal with |- context [fits ?b ?k ?c] => rewrite (proj2 (fits_iff b k c)) by lia end. cbn [rbind rmap].
        rewrite !ubits_shift, !bit_shift, E0 by lia. reflexivity.
      - cbn [fields decode f_off f_kind f_name kwidth nwidth num rbind rmap]. norm_lits. destruct (Z.ltb_spec (blen m) 2).
        + destruct (fits (p ++ m) (blen p) 1); [|reflexivity]. destruct (fits (p ++ m) (blen p) 3); [|reflexivity]. destruct (fits (p ++ m) (blen p) 8); [|reflexivity].
          rewrite (proj2 (fits_niff (p ++ m) (blen p) 13)) by lia. reflexivity.
        + repeat match goal with |- context [fits ?b ?k ?c] => rewrite (proj2 (fits_iff b k c)) by lia end. cbn [rbind rmap].
          rewrite !ubits_shift, !bit_shift, E0 by lia. reflexivity. }
    rewrite E. clear E. destruct (blen m <? 2); [reflexivity|]. cbn [rbind fst snd]. rewrite rest_shift by lia. apply T.
Qed.
Lemma content_type_eq b : mot_type b = content_type b.
Proof. unfold mot_type, content_type. rewrite !ubits_1. reflexivity. Qed.
(** Every message with three header bytes and an address. *)
Theorem C40_tmp_decoding : forall rt s0 s1 h addr m, blen addr < 256 ->
  let b := [s0; s1; h] ++ lv addr ++ m in
  from_bytes (p_MotTextMessageProtocol rt) b =
    let* c := tmp_content (content_type b) (bit b 16) m in
    Ok (VObj "TextMessageProtocol" (tmp_head b ++ lv_attrs "len_address" "address" addr ++ [("_m_custom_pdu_type", VInt (content_type b))] ++ fst c ++ [("unparsed_data", VBytes (snd c))])).
Proof.
  intros rt s0 s1 h addr m Ha b. rewrite mot_tmp_meets. unfold mot_tmp_spec. rewrite tmp_fields, content_type_eq. pose proof (blen_nonneg m). pose proof (blen_nonneg addr).
  assert (L : 3 <= blen b) by (unfold b; rewrite !blen_app, blen_lv; change (blen [s0; s1; h]) with 3; lia).
  destruct (Z.ltb_spec (blen b) 3); [lia|]. cbn [rbind].
  assert (S : sized "len_address" "address" b 3 = Ok (lv_attrs "len_address" "address" addr, blen ([s0; s1; h] ++ lv addr))).
  { unfold b. change 3 with (blen [s0; s1; h]). rewrite sized_lv, (blen_app [s0; s1; h]) by assumption. reflexivity. }
  rewrite S. cbn [rbind fst snd]. rewrite <- (part_content (bit b 16) (content_type b) ([s0; s1; h] ++ lv addr) m).
  replace (([s0; s1; h] ++ lv addr) ++ m) with b by (unfold b; rewrite <- app_assoc; reflexivity).
  destruct (part _ _ b _) as [[d n]|]; reflexivity.
Qed.
Print Assumptions C40_tmp_decoding.
(** All others are too short. *)
Theorem C40_short : forall rt b, (forall s0 s1 h addr m, blen addr < 256 -> b <> [s0; s1; h] ++ lv addr ++ m) -> from_bytes (p_MotTextMessageProtocol rt) b = Err EOFError.
Proof.
  intros rt b N. rewrite mot_tmp_meets. unfold mot_tmp_spec. rewrite tmp_fields. destruct (Z.ltb_spec (blen b) 3) as [|L]; [reflexivity|]. cbn [rbind].
  destruct (sized "len_address" "address" b 3) as [[a e]|x] eqn:S.
  - exfalso. apply sized_inv in S as [x [Hx [_ [R _]]]]; [|lia]. destruct b as [|s0 [|s1 [|h t]]]; try (unfold blen in L; cbn [List.length] in L; lia).
    apply (N s0 s1 h x (rest (s0 :: s1 :: h :: t) e) Hx). cbn [app]. do 3 f_equal. exact R.
  - revert S. unfold sized. destruct (blen b <? 3 + 1); [intros [= <-]; reflexivity|]. unfold bytes_at. pose proof (ubits_bound b (8 * 3) 8 ltac:(lia)). destruct (Z.ltb_spec (ubits b (8 * 3) 8) 0); [lia|].
    destruct (_ <=? _); [discriminate|]. intros [= <-]. reflexivity.
Qed.
Print Assumptions C40_short.
(** The content type is below 64 and determines the three header fields; it is what the property gives. *)
Theorem C40_custom_pdu_type : forall rt b v, from_bytes (p_MotTextMessageProtocol rt) b = Ok v ->
  getattr "_m_custom_pdu_type" v = Some (VInt (content_type b)) /\ 0 <= content_type b < 64.
Proof.
  intros rt b v H. split.
  - rewrite mot_tmp_meets in H. unfold mot_tmp_spec in H. rewrite tmp_fields, content_type_eq in H. destruct (blen b <? 3); [discriminate|]. cbn [rbind] in H.
    destruct (sized "len_address" "address" b 3) as [[a e]|] eqn:S; [|discriminate]. cbn [rbind fst snd] in H. destruct (part _ _ _ _) as [d|]; [|discriminate]. cbn [rbind] in H.
    assert (Ev : v = VObj "TextMessageProtocol" (tmp_head b ++ a ++ [("_m_custom_pdu_type", VInt (content_type b))] ++ fst d ++ [("unparsed_data", VBytes (rest b (snd d)))])) by congruence. subst v.
    apply sized_inv in S as [x [_ [-> _]]]; [|lia]. unfold lv_attrs. destruct x; reflexivity.
  - unfold content_type. pose proof (ubits_bound b 20 4 ltac:(lia)) as B. change (2 ^ 4) with 16 in B. destruct (bit b 17), (bit b 19); cbn [Z.b2z]; lia.
Qed.
Print Assumptions C40_custom_pdu_type.
Theorem C40_content_type_injective : forall b b', content_type b = content_type b' -> bit b 17 = bit b' 17 /\ bit b 19 = bit b' 19 /\ ubits b 20 4 = ubits b' 20 4.
Proof.
  intros b b'. unfold content_type. pose proof (ubits_bound b 20 4 ltac:(lia)) as B. pose proof (ubits_bound b' 20 4 ltac:(lia)) as B'. change (2 ^ 4) with 16 in *.
  destruct (bit b 17), (bit b 19), (bit b' 17), (bit b' 19); cbn [Z.b2z]; intros; repeat split; lia.
Qed.
Print Assumptions C40_content_type_injective.
Example C40_case : exists v d, from_bytes (p_MotTextMessageProtocol V010) (B ([0; 11; 0xa0; 1; 0x7a; 0x83; 0x24] ++ [72; 0; 105; 0])) = Ok v /\ getattr "pdu_content" v = Some d /\
  getattr "text_message" d = Some (VStr (lit "Hi")) /\ getattr "unparsed_data" v = Some (VBytes []) /\ getattr "_m_custom_pdu_type" v = Some (VInt 0).
Proof. do 2 eexists. split; [vm_compute; reflexivity|]. split; [vm_compute; reflexivity|]. vm_compute. repeat split; reflexivity. Qed.
Example C40_case_other : exists v, from_bytes (p_MotTextMessageProtocol V010) (B [0; 3; 0x07; 0; 1; 2]) = Ok v /\ getattr "pdu_content" v = None /\ getattr "unparsed_data" v = Some (VBytes (B [1; 2])).
Proof. eexists. split; [vm_compute; reflexivity|]. vm_compute. repeat split; reflexivity. Qed.

(** * C41 *)
(** [sequence_number] of a text message header and of an acknowledgement header that follow [m] *)
Definition TextHeader_property (x : string) : live -> res pyval * live :=
  if String.eqb x "sequence_number" then MotTextMessageProtocol_TextMessageHeader_sequence_number else no_property x.
Definition AckHeader_property (x : string) : live -> res pyval * live :=
  if String.eqb x "sequence_number" then MotTextMessageProtocol_TmsAcknowledgementHeader_sequence_number else no_property x.
(** With the second header byte: the two msb bits times 16 plus the five lsb bits.  Without it: AttributeError. *)
Definition sequence_value (m : bytes) (missing : string) (x : string) : res pyval :=
  if String.eqb x "sequence_number" then if bit m 0 then Ok (VInt (16 * ubits m 9 2 + ubits m 3 5)) else Err (AttributeError missing)
  else Err (AttributeError x).
Theorem C41_text_header_sequence_number : forall rt m o ops, l_attrs o = text_header m ->
  Forall (fun ob => ob_result ob = sequence_value m "sequence_number_msb_bits" (ob_name ob) /\ (forall v, ob_result ob = Ok v -> ob_after ob = ob_before ob))
    (history rt TextHeader_property ops o).
Proof.
  intros rt m o ops Ha. set (val := sequence_value m "sequence_number_msb_bits").
  assert (V1 : val "sequence_number" = if bit m 0 then Ok (VInt (16 * ubits m 9 2 + ubits m 3 5)) else Err (AttributeError "sequence_number_msb_bits")) by reflexivity.
  assert (V2 : forall x, x <> "sequence_number" -> val x = Err (AttributeError x)) by (intros x N; unfold val, sequence_value; rewrite (proj2 (String.eqb_neq _ _) N); reflexivity).
  clearbody val.
  unfold text_header in Ha. destruct (bit m 0); cbn [app] in Ha.
  all: refine (derived_history rt _ val _ o ops Ha eq_refl _).
  all: intros x o' Ho; unfold TextHeader_property; destruct (String.eqb_spec x "sequence_number") as [->|N]; [|apply (no_property_intact _ _ _ x o'); [apply V2; assumption|exact Ho]].
  - unfold MotTextMessageProtocol_TextMessageHeader_sequence_number. apply (pure_property _ _ val "sequence_number"); [|exact Ho]. intros a s Hb. use_stored Hb. rewrite V1. unfold ret. do 3 f_equal. rewrite Z.shiftl_mul_pow2 by lia. lia.
  - unfold MotTextMessageProtocol_TextMessageHeader_sequence_number. apply (pure_property _ _ val "sequence_number"); [|exact Ho]. intros a s Hb. unfold bind.
    unfold stored_int at 1, stored. rewrite Hb by reflexivity. rewrite V1. reflexivity.
Qed.
Print Assumptions C41_text_header_sequence_number.
Theorem C41_ack_header_sequence_number : forall rt m o ops, l_attrs o = ack_header m ->
  Forall (fun ob => ob_result ob = sequence_value m "header_msb_bits" (ob_name ob) /\ (forall v, ob_result ob = Ok v -> ob_after ob = ob_before ob))
    (history rt AckHeader_property ops o).
Proof.
  intros rt m o ops Ha. set (val := sequence_value m "header_msb_bits").
  assert (V1 : val "sequence_number" = if bit m 0 then Ok (VInt (16 * ubits m 9 2 + ubits m 3 5)) else Err (AttributeError "header_msb_bits")) by reflexivity.
  assert (V2 : forall x, x <> "sequence_number" -> val x = Err (AttributeError x)) by (intros x N; unfold val, sequence_value; rewrite (proj2 (String.eqb_neq _ _) N); reflexivity).
  clearbody val.
  unfold ack_header in Ha. destruct (bit m 0); cbn [app] in Ha.
  all: refine (derived_history rt _ val _ o ops Ha eq_refl _).
  all: intros x o' Ho; unfold AckHeader_property; destruct (String.eqb_spec x "sequence_number") as [->|N]; [|apply (no_property_intact _ _ _ x o'); [apply V2; assumption|exact Ho]].
  - unfold MotTextMessageProtocol_TmsAcknowledgementHeader_sequence_number. apply (pure_property _ _ val "sequence_number"); [|exact Ho]. intros a s Hb. use_stored Hb. rewrite V1. unfold ret. do 3 f_equal. rewrite Z.shiftl_mul_pow2 by lia. lia.
  - unfold MotTextMessageProtocol_TmsAcknowledgementHeader_sequence_number. apply (pure_property _ _ val "sequence_number"); [|exact Ho]. intros a s Hb. unfold bind.
    unfold stored_int at 1, stored. rewrite Hb by reflexivity. rewrite V1. reflexivity.
Qed.
Print Assumptions C41_ack_header_sequence_number.
(** Which headers share a sequence number: distinct ones do, since the five lsb bits overlap the msb bits. *)
Theorem C41_collisions : forall m m', bit m 0 = true -> bit m' 0 = true ->
  (sequence_value m "sequence_number_msb_bits" "sequence_number" = sequence_value m' "sequence_number_msb_bits" "sequence_number" <->
   (ubits m 9 2 = ubits m' 9 2 /\ ubits m 3 5 = ubits m' 3 5) \/
   (ubits m 9 2 = ubits m' 9 2 + 1 /\ ubits m 3 5 + 16 = ubits m' 3 5) \/
   (ubits m 9 2 + 1 = ubits m' 9 2 /\ ubits m 3 5 = ubits m' 3 5 + 16)).
Proof.
  intros m m' H H'. unfold sequence_value. cbn [String.eqb Ascii.eqb Bool.eqb]. rewrite H, H'.
  pose proof (ubits_bound m 3 5 ltac:(lia)) as B1. pose proof (ubits_bound m' 3 5 ltac:(lia)) as B2. change (2 ^ 5) with 32 in *.
  split; [intros E; assert (E' : 16 * ubits m 9 2 + ubits m 3 5 = 16 * ubits m' 9 2 + ubits m' 3 5) by congruence; clear E; lia|]. intros E. do 2 f_equal. lia.
Qed.
Print Assumptions C41_collisions.
Definition two (n n' : string) (o : live) : option live := match child n o with Some c => child n' c | None => None end.
(** The expected property fails: two messages with different sequence bits have the same sequence_number, and
    a one-byte header has none. *)
Theorem C41_distinct_sequence_numbers_refuted : exists o o' o'' c c' c'',
  open_object (p_MotTextMessageProtocol V011) (B [0; 4; 0x80; 0; 0x80; 0x20]) = Ok o /\
  open_object (p_MotTextMessageProtocol V011) (B [0; 4; 0x80; 0; 0x90; 0x00]) = Ok o' /\
  open_object (p_MotTextMessageProtocol V011) (B [0; 4; 0x80; 0; 0x10; 0x00]) = Ok o'' /\
  two "pdu_content" "text_message_header_sequence_and_encoding" o = Some c /\ two "pdu_content" "text_message_header_sequence_and_encoding" o' = Some c' /\
  two "pdu_content" "text_message_header_sequence_and_encoding" o'' = Some c'' /\
  lookup "sequence_number_msb_bits" (l_attrs c) = Some (VInt 1) /\ lookup "sequence_number_lsb_bits" (l_attrs c) = Some (VInt 0) /\
  lookup "sequence_number_msb_bits" (l_attrs c') = Some (VInt 0) /\ lookup "sequence_number_lsb_bits" (l_attrs c') = Some (VInt 16) /\
  fst (TextHeader_property "sequence_number" c) = Ok (VInt 16) /\ fst (TextHeader_property "sequence_number" c') = Ok (VInt 16) /\
  fst (TextHeader_property "sequence_number" c'') = Err (AttributeError "sequence_number_msb_bits").
Proof.
  do 6 eexists. split; [vm_compute; reflexivity|]. split; [vm_compute; reflexivity|]. split; [vm_compute; reflexivity|].
  split; [vm_compute; reflexivity|]. split; [vm_compute; reflexivity|]. split; [vm_compute; reflexivity|]. vm_compute. repeat split; reflexivity.
Qed.
Print Assumptions C41_distinct_sequence_numbers_refuted.
