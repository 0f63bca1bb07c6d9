(** The motorola parsers meet their specification. *)
From Verif Require Import PyBase Runtime Codec CodecSpec CodecProofs Spec DecSpec RuntimeProofs DecProofs Enums EnumProofs Getters HyteraModel HyteraSpec HyteraRuns HyteraProofs HyteraProofs2 HyteraProofs3 MotorolaModel MotorolaSpec.
From Coq Require Import ZifyBool.
Ltac Zify.zify_post_hook ::= Z.div_mod_to_equations.
Open Scope string_scope.
Open Scope list_scope.
Open Scope Z_scope.

Lemma r_AutomaticRegistrationService_MessageHeaderBits : runs8 p_AutomaticRegistrationService_MessageHeaderBits 8 (object "AutomaticRegistrationService.MessageHeaderBits" L_AutomaticRegistrationService_MessageHeaderBits).
Proof. straight. Qed.
#[export] Hint Extern 1 (runs_at p_AutomaticRegistrationService_MessageHeaderBits _ _) => apply r_AutomaticRegistrationService_MessageHeaderBits; [lia|reflexivity] : runs.

Lemma r_AutomaticRegistrationService_DeviceRegistrationMessageHeader : runs8 p_AutomaticRegistrationService_DeviceRegistrationMessageHeader 8 (object "AutomaticRegistrationService.DeviceRegistrationMessageHeader" L_AutomaticRegistrationService_DeviceRegistrationMessageHeader).
Proof. straight. Qed.
#[export] Hint Extern 1 (runs_at p_AutomaticRegistrationService_DeviceRegistrationMessageHeader _ _) => apply r_AutomaticRegistrationService_DeviceRegistrationMessageHeader; [lia|reflexivity] : runs.

Lemma r_AutomaticRegistrationService_DeviceRegistrationAcknowledgementHeader : runs8 p_AutomaticRegistrationService_DeviceRegistrationAcknowledgementHeader 8 (object "AutomaticRegistrationService.DeviceRegistrationAcknowledgementHeader" L_AutomaticRegistrationService_DeviceRegistrationAcknowledgementHeader).
Proof. straight. Qed.
#[export] Hint Extern 1 (runs_at p_AutomaticRegistrationService_DeviceRegistrationAcknowledgementHeader _ _) => apply r_AutomaticRegistrationService_DeviceRegistrationAcknowledgementHeader; [lia|reflexivity] : runs.

Lemma r_AutomaticRegistrationService_DeviceRegistrationAcknowledgementFailureReason : runs8 p_AutomaticRegistrationService_DeviceRegistrationAcknowledgementFailureReason 8 (object "AutomaticRegistrationService.DeviceRegistrationAcknowledgementFailureReason" L_AutomaticRegistrationService_DeviceRegistrationAcknowledgementFailureReason).
Proof. straight. Qed.
#[export] Hint Extern 1 (runs_at p_AutomaticRegistrationService_DeviceRegistrationAcknowledgementFailureReason _ _) => apply r_AutomaticRegistrationService_DeviceRegistrationAcknowledgementFailureReason; [lia|reflexivity] : runs.

Lemma r_MotTextMessageProtocol_MessageHeaderBits : runs8 p_MotTextMessageProtocol_MessageHeaderBits 8 (object "TextMessageProtocol.MessageHeaderBits" L_MotTextMessageProtocol_MessageHeaderBits).
Proof. straight. Qed.
#[export] Hint Extern 1 (runs_at p_MotTextMessageProtocol_MessageHeaderBits _ _) => apply r_MotTextMessageProtocol_MessageHeaderBits; [lia|reflexivity] : runs.

Lemma r_MotTextMessageProtocol_TmsServiceAvailabilityHeader : runs8 p_MotTextMessageProtocol_TmsServiceAvailabilityHeader 8 (object "TextMessageProtocol.TmsServiceAvailabilityHeader" L_MotTextMessageProtocol_TmsServiceAvailabilityHeader).
Proof. straight. Qed.
#[export] Hint Extern 1 (runs_at p_MotTextMessageProtocol_TmsServiceAvailabilityHeader _ _) => apply r_MotTextMessageProtocol_TmsServiceAvailabilityHeader; [lia|reflexivity] : runs.

Lemma r_MotorolaBinaryXml_Opaque1byteValue rt : runs8 (p_MotorolaBinaryXml_Opaque1byteValue rt) 8 (object "MotorolaBinaryXml.Opaque1byteValue" L_MotorolaBinaryXml_Opaque1byteValue).
Proof. straight. Qed.
#[export] Hint Extern 1 (runs_at (p_MotorolaBinaryXml_Opaque1byteValue _) _ _) => apply r_MotorolaBinaryXml_Opaque1byteValue; [lia|reflexivity] : runs.

Lemma r_MotorolaBinaryXml_Opaque2byteValue rt : runs8 (p_MotorolaBinaryXml_Opaque2byteValue rt) 16 (object "MotorolaBinaryXml.Opaque2byteValue" L_MotorolaBinaryXml_Opaque2byteValue).
Proof. straight. Qed.
#[export] Hint Extern 1 (runs_at (p_MotorolaBinaryXml_Opaque2byteValue _) _ _) => apply r_MotorolaBinaryXml_Opaque2byteValue; [lia|reflexivity] : runs.

Lemma r_MotorolaBinaryXml_Opaque3byteValue rt : runs8 (p_MotorolaBinaryXml_Opaque3byteValue rt) 24 (object "MotorolaBinaryXml.Opaque3byteValue" L_MotorolaBinaryXml_Opaque3byteValue).
Proof. straight. Qed.
#[export] Hint Extern 1 (runs_at (p_MotorolaBinaryXml_Opaque3byteValue _) _ _) => apply r_MotorolaBinaryXml_Opaque3byteValue; [lia|reflexivity] : runs.

Lemma r_MotorolaBinaryXml_Opaque4byteValue rt : runs8 (p_MotorolaBinaryXml_Opaque4byteValue rt) 32 (object "MotorolaBinaryXml.Opaque4byteValue" L_MotorolaBinaryXml_Opaque4byteValue).
Proof. straight. Qed.
#[export] Hint Extern 1 (runs_at (p_MotorolaBinaryXml_Opaque4byteValue _) _ _) => apply r_MotorolaBinaryXml_Opaque4byteValue; [lia|reflexivity] : runs.

Lemma r_MotorolaBinaryXml_Opaque5byteValue rt : runs8 (p_MotorolaBinaryXml_Opaque5byteValue rt) 40 (object "MotorolaBinaryXml.Opaque5byteValue" L_MotorolaBinaryXml_Opaque5byteValue).
Proof. straight. Qed.
#[export] Hint Extern 1 (runs_at (p_MotorolaBinaryXml_Opaque5byteValue _) _ _) => apply r_MotorolaBinaryXml_Opaque5byteValue; [lia|reflexivity] : runs.

Section S.
Context (rt : runtime).

Lemma step_flag_of {A} x o v (X : bool -> M A) s : getattr x o = Some (VBool v) -> runM (bind (flag_of x o) X) s = runM (X v) s.
Proof. intros H. unfold flag_of. rewrite H. apply step_ret. Qed.
Lemma step_int_of {A} x o v (X : Z -> M A) s : getattr x o = Some (VInt v) -> runM (bind (int_of x o) X) s = runM (X v) s.
Proof. intros H. unfold int_of. rewrite H. apply step_ret. Qed.

(** a length byte and that many bytes *)
Lemma step_sized {R} b lo k len name (X : Z -> option pyval -> M R) (G : attrs * Z -> res (R * Z)) : 0 <= k <= blen b ->
  (forall n o, 0 <= n -> k + 1 + n <= blen b -> sized len name b k = Ok ((len, VInt n) :: opt name o, k + 1 + n) ->
     agrees b lo (runM (X n o) (at_ b (k + 1 + n) 0)) (G ((len, VInt n) :: opt name o, k + 1 + n))) ->
  agrees b lo (runM (bind (read_u1 rt) (fun n => bind (if 0 <? n then some (vbytes rt n) else none) (X n))) (at_ b k 0)) (rbind (sized len name b k) G).
Proof.
  intros Hk HX. unfold sized in *. cbv zeta in *. rewrite runM_bind, run_read_u1 by zside. change (0 + 8) with 8.
  destruct (fits b k 8) eqn:Hf.
  - apply fits_iff in Hf. destruct (Z.ltb_spec (blen b) (k + 1)); [lia|].
    cbv iota beta. rewrite Z.add_0_r. pose proof (ubits_bound b (8 * k) 8 ltac:(lia)) as Hn. set (n := ubits b (8 * k) 8) in *.
    rewrite at_byte by reflexivity. change (8 / 8) with 1. unfold bytes_at in *.
    destruct (Z.ltb_spec n 0); [lia|].
    destruct (Z.ltb_spec 0 n) as [Hpos|Hz].
    + destruct (Z.eqb_spec n 0); [lia|]. unfold some, vbytes. rewrite !step_assoc, runM_bind, run_read_bytes_var by (lia || (left; apply fits_start; lia)).
      change (0 / 8) with 0. rewrite Z.add_0_r.
      destruct (Z.ltb_spec n 0); [lia|]. destruct (Z.leb_spec (k + 1 + n) (blen b)); [|reflexivity].
      cbn [rbind] in *. rewrite !step_ret. apply (HX n (Some (VBytes (slice b (k + 1) n)))); [lia|lia|reflexivity].
    + assert (n = 0) as -> by lia. cbn [Z.eqb] in *. rewrite Z.add_0_r in *. unfold none. rewrite step_ret.
      destruct (Z.leb_spec (k + 1) (blen b)); [|lia]. cbn [rbind] in *.
      specialize (HX 0 None). rewrite Z.add_0_r in HX. apply HX; [lia|lia|reflexivity].
  - apply fits_niff in Hf. destruct (Z.ltb_spec (blen b) (k + 1)); [reflexivity|lia].
Qed.

Lemma step_sized_ext {R} b lo k len name (X : Z -> option pyval -> M R) (Y : Z -> M R) (G : attrs * Z -> res (R * Z)) : 0 <= k <= blen b ->
  (forall n s, runM (Y n) s = runM (bind (if 0 <? n then some (vbytes rt n) else none) (X n)) s) ->
  (forall n o, 0 <= n -> k + 1 + n <= blen b -> sized len name b k = Ok ((len, VInt n) :: opt name o, k + 1 + n) ->
     agrees b lo (runM (X n o) (at_ b (k + 1 + n) 0)) (G ((len, VInt n) :: opt name o, k + 1 + n))) ->
  agrees b lo (runM (bind (read_u1 rt) Y) (at_ b k 0)) (rbind (sized len name b k) G).
Proof.
  intros Hk HY HX.
  assert (E : runM (bind (read_u1 rt) Y) (at_ b k 0) = runM (bind (read_u1 rt) (fun n => bind (if 0 <? n then some (vbytes rt n) else none) (X n))) (at_ b k 0)).
  { rewrite !runM_bind. destruct (runM (read_u1 rt) (at_ b k 0)) as [[n s]|y]; [apply HY|reflexivity]. }
  rewrite E. apply step_sized; assumption.
Qed.

(** an optional header byte *)
Lemma step_part_if {R} b lo (c : bool) m f n p (X : option pyval -> M R) (G : attrs * Z -> res (R * Z)) : runs_dec m f -> 0 <= p <= blen b ->
  (forall o e, p <= e <= blen b -> agrees b lo (runM (X o) (at_ b e 0)) (G (opt n o, e))) ->
  agrees b lo (runM (bind (if c then some m else none) X) (at_ b p 0)) (rbind (part n (if c then Some f else None) b p) G).
Proof.
  intros H Hp HX. destruct c.
  - eapply step_part; [exact H|exact Hp|]. intros v e _ He. exact (HX (Some v) e He).
  - apply step_nopart. apply (HX None). lia.
Qed.

Lemma d_ars_registration hdr ext : getattr "extension_bit" hdr = Some (VBool ext) ->
  runs_dec (p_AutomaticRegistrationService_DeviceRegistrationMessage rt hdr) (ars_registration ext).
Proof.
  intros He b k Hk. unfold p_AutomaticRegistrationService_DeviceRegistrationMessage, ars_registration.
  erewrite step_flag_of by exact He.
  eapply step_part_if; [dec_tab|lia|]. intros o e Hoe. cbn [fst snd].
  apply step_sized; [lia|]. intros n1 o1 ? ? _. cbn [fst snd].
  apply step_sized; [lia|]. intros n2 o2 ? ? _. cbn [fst snd].
  apply step_sized; [lia|]. intros n3 o3 ? ? _. cbn [fst snd].
  rewrite runM_ret. split; [reflexivity|lia].
Qed.

Lemma d_ars_ack hdr ext ack : getattr "extension_bit" hdr = Some (VBool ext) -> getattr "acknowledgement_bit" hdr = Some (VBool ack) ->
  runs_dec (p_AutomaticRegistrationService_AcknowledgementMessage hdr) (ars_acknowledgement ext ack).
Proof.
  intros He Ha b k Hk. unfold p_AutomaticRegistrationService_AcknowledgementMessage, ars_acknowledgement.
  erewrite step_flag_of by exact He. erewrite step_flag_of by exact Ha.
  destruct ext, ack; cbn [andb negb]; cbv iota.
  1,2: repeat first [eapply step_part; [dec_tab|lia|intros v e _ Hb; cbn [fst snd]] | unfold none; rewrite step_ret]; leaf.
  all: unfold none; rewrite !step_ret; cbn [rbind fst snd]; leaf.
Qed.

Lemma ars_header b v : decode b 0 16 (KSub 8 (object "AutomaticRegistrationService.MessageHeaderBits" L_AutomaticRegistrationService_MessageHeaderBits)) = Ok v ->
  getattr "extension_bit" v = Some (VBool (bit b 16)) /\ getattr "acknowledgement_bit" v = Some (VBool (bit b 17)) /\ getattr "pdu_type" v = Some (VInt (ubits b 20 4)).
Proof.
  unfold L_AutomaticRegistrationService_MessageHeaderBits, object, decode. cbn [fields decode f_off f_kind f_name].
  change (0 + 16 / 8) with 2.
  repeat match goal with |- context [if fits ?a ?p ?q then _ else _] => destruct (fits a p q); [|discriminate] end.
  cbn [rmap num]. intros E. assert (Ev : forall x y : pyval, Ok x = Ok y -> x = y) by congruence. apply Ev in E. subst v. repeat split.
Qed.

Lemma d_empty cls : runs_dec (ret (VObj cls [])) (table cls []).
Proof. intros b k Hk. unfold table. cbn. split; [|lia]. rewrite Z.add_0_r. reflexivity. Qed.

Lemma ars_meets b : from_bytes (p_AutomaticRegistrationService rt) b = ars_spec b.
Proof.
  apply from_bytes_agrees. pose proof (blen_nonneg b).
  unfold p_AutomaticRegistrationService, ars_spec, L_AutomaticRegistrationService. rewrite rmap_rbind.
  flds. destruct (ars_header b v ltac:(assumption)) as [Q1 [Q2 Q3]].
  erewrite step_int_of by exact Q3. pos.
  rewrite rmap_rbind. unfold ars_bodies.
  pick (ubits b 20 4) (ars_bodies true true).
  all: first [eapply step_part; [first [apply d_ars_registration; assumption | apply d_ars_ack; assumption | apply d_empty]|blens|]; intros ? ? ? ?; cbn [fst snd] | apply step_nopart; cbn [fst snd]].
  all: erewrite step_ok by (apply run_read_bytes_full; first [zside | apply fits_start; blens]); change (0 / 8) with 0; rewrite ?Z.add_0_r; leaf.
Qed.

(** ** text messages *)
Lemma d_mot_availability hdr ext : getattr "extension_bit" hdr = Some (VBool ext) ->
  runs_dec (p_MotTextMessageProtocol_TmsServiceAvailability hdr) (mot_availability ext).
Proof.
  intros He b k Hk. unfold p_MotTextMessageProtocol_TmsServiceAvailability, mot_availability.
  erewrite step_flag_of by exact He.
  eapply step_part_if; [dec_tab|lia|]. intros o e Hoe. cbn [fst snd]. leaf.
Qed.

Definition mot_ack_header_at : decoder := fun b k =>
  table "TextMessageProtocol.TmsAcknowledgementHeaderSequenceNumber" (L_mot_ack_header (bit b (8 * k))) b k.
Lemma d_mot_ack_header : runs_dec p_MotTextMessageProtocol_TmsAcknowledgementHeaderSequenceNumber mot_ack_header_at.
Proof.
  intros b k Hk. unfold p_MotTextMessageProtocol_TmsAcknowledgementHeaderSequenceNumber, mot_ack_header_at, table, L_mot_ack_header.
  destruct (bit b (8 * k)) eqn:Hb; cbn [app fs_end f_off f_kind kwidth nwidth].
  all: flds; rewrite Z.add_0_r, Hb; cbv iota; unfold vflag, vint; flds.
  all: pos; leaf.
Qed.

Lemma d_mot_ack hdr ext : getattr "extension_bit" hdr = Some (VBool ext) ->
  runs_dec (p_MotTextMessageProtocol_TmsAcknowledgement hdr) (mot_acknowledgement ext).
Proof.
  intros He b k Hk. unfold p_MotTextMessageProtocol_TmsAcknowledgement, mot_acknowledgement.
  erewrite step_flag_of by exact He.
  assert (E : forall c : bool, part "tms_acknowledgement_header_sequence_number" (if c then Some (table "TextMessageProtocol.TmsAcknowledgementHeaderSequenceNumber" (L_mot_ack_header (bit b (8 * k)))) else None) b k
     = part "tms_acknowledgement_header_sequence_number" (if c then Some mot_ack_header_at else None) b k) by (intros []; reflexivity).
  rewrite E.
  eapply step_part_if; [apply d_mot_ack_header|lia|]. intros o e Hoe. cbn [fst snd]. leaf.
Qed.

(** the rest of the packet, with unread bits of a byte dropped; nothing is left after it *)
Lemma run_full_unaligned b k c : 0 <= k -> 0 <= c -> fits b k c = true ->
  exists s, runM (read_bytes_full rt) (at_ b k c) = Ok (rest b (k + (c + 7) / 8), s) /\
    runM (read_bytes_full rt) s = Ok ([], s) /\ align_state s = at_ b (blen b) 0.
Proof.
  intros Hk Hc Hf. apply fits_iff in Hf. Transparent at_. unfold runM, read_bytes_full, at_, set_pos, auto_align, align_state, rest.
  assert (E : (Z.to_nat (k + (c + 7) / 8) + List.length (skipn (Z.to_nat (k + (c + 7) / 8)) b))%nat = List.length b).
  { rewrite skipn_length. unfold blen in *. lia. }
  destruct rt; cbn [s_buf s_pos s_bits s_left]; eexists; (split; [reflexivity|]); cbn [s_buf s_pos s_bits s_left].
  all: rewrite E, skipn_all; cbn [List.length]; rewrite Nat.add_0_r; split; [reflexivity|].
  all: change ((- 0) mod 8) with 0; rewrite ubits_0; f_equal; unfold blen; lia.
Qed.
Opaque at_.

Lemma from_bytes_aligned (m : M pyval) b : from_bytes (bind m (fun v => bind align_to_byte (fun _ => ret v))) b = from_bytes m b.
Proof. unfold from_bytes, bind. destruct (m (stream_of b)) as [[v|e] s]; reflexivity. Qed.

Lemma mot_header b v : decode b 0 16 (KSub 8 (object "TextMessageProtocol.MessageHeaderBits" L_MotTextMessageProtocol_MessageHeaderBits)) = Ok v ->
  getattr "extension_bit" v = Some (VBool (bit b 16)) /\ getattr "acknowledgement_required" v = Some (VBool (bit b 17)) /\
  getattr "control_user_bit" v = Some (VBool (bit b 19)) /\ getattr "pdu_type" v = Some (VInt (ubits b 20 4)).
Proof.
  unfold L_MotTextMessageProtocol_MessageHeaderBits, object, decode. cbn [fields decode f_off f_kind f_name].
  change (0 + 16 / 8) with 2.
  repeat match goal with |- context [if fits ?a ?p ?q then _ else _] => destruct (fits a p q); [|discriminate] end.
  cbn [rmap num]. intros E. assert (Ev : forall x y : pyval, Ok x = Ok y -> x = y) by congruence. apply Ev in E. subst v. repeat split.
Qed.

(** a text message is always the last thing in the packet *)
Lemma run_mot_text {R} b lo k hdr ext (X : pyval -> M R) (G : pyval * Z -> res (R * Z)) : getattr "extension_bit" hdr = Some (VBool ext) ->
  0 <= k <= blen b ->
  (forall v s, runM (read_bytes_full rt) s = Ok ([], s) -> align_state s = at_ b (blen b) 0 -> agrees b lo (runM (X v) s) (G (v, blen b))) ->
  agrees b lo (runM (bind (p_MotTextMessageProtocol_TextMessage rt hdr) X) (at_ b k 0)) (rbind (mot_text ext b k) G).
Proof.
  intros He Hk HX. unfold p_MotTextMessageProtocol_TextMessage, mot_text. rewrite step_assoc. erewrite step_flag_of by exact He.
  assert (T : forall c h a, 0 <= c -> fits b k c = true -> opt "text_message_header_sequence_and_encoding" h = a ->
    agrees b lo (runM (bind (bind (read_bytes_full rt) (fun x => bind (lift (py_decode UTF16LE x)) (fun text_message =>
       ret (VObj "TextMessageProtocol.TextMessage" (opt "text_message_header_sequence_and_encoding" h ++ [("text_message", VStr text_message)]))))) X) (at_ b k c))
     (rbind (match decode_text UTF16LE (rest b (k + (c + 7) / 8)) with
       | Some s => Ok (VObj "TextMessageProtocol.TextMessage" (a ++ [("text_message", VStr s)]), blen b)
       | None => Err (UnicodeDecodeError (enc_name UTF16LE)) end) G)).
  { intros c h a Hc Hf <-. rewrite step_assoc. destruct (run_full_unaligned b k c ltac:(lia) Hc Hf) as [s [R1 [R2 R3]]].
    erewrite step_ok by exact R1. rewrite step_assoc, step_lift. unfold py_decode.
    destruct (decode_text UTF16LE _) as [t|]; [|reflexivity]. rewrite step_ret. cbn [rbind]. apply HX; assumption. }
  destruct ext.
  - unfold p_MotTextMessageProtocol_TextMessageHeaderSequenceAndEncoding, L_mot_text_header, some at 1.
    rewrite !step_assoc. apply agrees_rbind_assoc. apply agrees_rbind_assoc.
    destruct (bit b (8 * k)) eqn:Hb; cbn [app].
    all: flds; rewrite Z.add_0_r, Hb; cbv iota; unfold vflag, vint; flds; cbn [rbind fst snd].
    + specialize (T 16). change ((16 + 7) / 8) with 2 in T. apply T; [lia|assumption|reflexivity].
    + specialize (T 13). change ((13 + 7) / 8) with 2 in T. apply T; [lia|assumption|reflexivity].
  - unfold none. rewrite step_assoc, step_ret. cbn [rbind fst snd]. specialize (T 0). change ((0 + 7) / 8) with 0 in T. rewrite Z.add_0_r in T.
    apply T; [lia|apply fits_start; lia|reflexivity].
Qed.

Lemma mot_tmp_meets b : from_bytes (p_MotTextMessageProtocol rt) b = mot_tmp_spec b.
Proof.
  rewrite <- from_bytes_aligned.
  apply from_bytes_agrees. pose proof (blen_nonneg b).
  unfold p_MotTextMessageProtocol, mot_tmp_spec, L_MotTextMessageProtocol. rewrite rmap_rbind.
  flds. destruct (mot_header b v ltac:(assumption)) as [Q1 [Q2 [Q3 Q4]]]. pos. change (0 + 3) with 3. 
  rewrite rmap_rbind.
  eapply step_sized_ext; [blens| |].
  { intros n s. rewrite step_assoc. reflexivity. }
  intros n o Hn Hle Hs. cbv beta. rewrite step_assoc. unfold MotTextMessageProtocol_custom_pdu_type. rewrite step_assoc.
  erewrite step_flag_of by exact Q2. rewrite step_assoc. erewrite step_flag_of by exact Q3. rewrite step_assoc. erewrite step_int_of by exact Q4. rewrite step_ret, step_assoc.
  assert (Ht : (Z.shiftl (Z.b2z (bit b 17)) 5 + Z.shiftl (Z.b2z (bit b 19)) 4) + ubits b 20 4 = mot_type b).
  { unfold mot_type. rewrite !ubits_1, !Z.shiftl_mul_pow2 by lia. change (2 ^ 5) with 32. change (2 ^ 4) with 16. lia. }
  rewrite Ht. cbn [fst snd].
  rewrite rmap_rbind. unfold mot_bodies. pick (mot_type b) (mot_bodies true).
  1,2,5: first [eapply step_part; [first [apply d_mot_availability; assumption | apply d_mot_ack; assumption]|blens|]; intros ? ? ? ?; cbn [fst snd] | apply step_nopart; cbn [fst snd]].
  1,2,3: rewrite step_assoc; erewrite step_ok by (apply run_read_bytes_full; first [zside | apply fits_start; blens]); rewrite step_ret;
    erewrite step_ok by (apply run_align; reflexivity); change (0 / 8) with 0; rewrite ?Z.add_0_r; leaf.
  all: unfold part; apply agrees_rbind_assoc; unfold some; rewrite step_assoc; apply run_mot_text; [assumption|blens|]; intros vv s S1 S2; cbn [rbind fst snd]; rewrite step_ret;
    rewrite step_assoc; erewrite step_ok by exact S1; rewrite step_ret;
    erewrite (step_ok align_to_byte _ s tt (at_ b (blen b) 0)) by (rewrite <- S2; reflexivity);
    replace (rest b (blen b)) with (@nil byte) by (unfold rest, blen; rewrite Nat2Z.id, skipn_all; reflexivity); leaf.
Qed.

(** ** variable length numbers *)
Lemma rest_cons b k : 0 <= k < blen b -> rest b k = nth (Z.to_nat k) b Byte.x00 :: rest b (k + 1).
Proof.
  intros Hk. unfold rest, blen in *. replace (Z.to_nat (k + 1)) with (S (Z.to_nat k)) by lia.
  assert (Hl : (Z.to_nat k < List.length b)%nat) by lia. clear Hk. revert Hl. generalize (Z.to_nat k) as n. intros n. revert b.
  induction n as [|n IH]; intros [|x b] Hl; cbn in *; try lia; [reflexivity|]. apply IH. lia.
Qed.
Lemma rest_nil b k : blen b <= k -> rest b k = [].
Proof. intros. unfold rest, blen in *. apply skipn_all2. lia. Qed.
Lemma land_128 x : (Z.land (bz x) 128 =? 0) = (bz x <? 128).
Proof. destruct x; reflexivity. Qed.

Lemma var_bytes_len l : blen (var_bytes l) <= blen l.
Proof.
  induction l as [|x l IH]; [reflexivity|]. cbn [var_bytes]. unfold blen in *. cbn [List.length].
  destruct (_ <? _); cbn [List.length] in *; lia.
Qed.
Lemma blen_rest b k : 0 <= k <= blen b -> blen (rest b k) = blen b - k.
Proof. intros. unfold rest, blen in *. rewrite skipn_length. lia. Qed.
Lemma blen_cons x l : blen (x :: l) = 1 + blen l.
Proof. unfold blen. cbn [List.length]. lia. Qed.

Lemma run_var fuel : forall b k, 0 <= k <= blen b -> blen b - k < Z.of_nat fuel ->
  runM (var_payload rt fuel) (at_ b k 0) =
  (if blen b <=? k then Err EOFError else
   Ok (map (fun x => VInt (bz x)) (var_bytes (rest b k)), at_ b (k + blen (var_bytes (rest b k))) 0)).
Proof.
  induction fuel as [|fuel IH]; intros b k Hk Hf; [lia|]. cbn [var_payload].
  rewrite runM_bind, run_read_u1 by zside. change (0 + 8) with 8.
  destruct (fits b k 8) eqn:Hfit.
  2:{ apply fits_niff in Hfit. destruct (Z.leb_spec (blen b) k); [reflexivity|lia]. }
  apply fits_iff in Hfit. destruct (Z.leb_spec (blen b) k); [lia|]. cbv iota beta.
  rewrite Z.add_0_r, ubits_byte by lia. rewrite (rest_cons b k) by lia. set (x := nth (Z.to_nat k) b Byte.x00). cbn [var_bytes].
  rewrite land_128. rewrite at_byte by reflexivity. change (8 / 8) with 1.
  destruct (bz x <? 128) eqn:Hx.
  - rewrite step_ret, runM_ret. reflexivity.
  - erewrite step_ok by (apply run_is_eof; zside). change (0 / 8) with 0. rewrite Z.add_0_r.
    rewrite blen_cons. cbn [map].
    destruct (Z.leb_spec (blen b) (k + 1)).
    + rewrite rest_nil by lia. rewrite runM_ret. reflexivity.
    + rewrite runM_bind, IH by lia. destruct (Z.leb_spec (blen b) (k + 1)); [lia|]. rewrite runM_ret.
      do 3 f_equal. lia.
Qed.

Lemma d_var (p : M pyval) cls : p = bind (with_fuel (var_payload rt)) (fun payload => ret (VObj cls [("payload", VList payload)])) -> runs_dec p (var_at cls).
Proof.
  intros -> b k Hk. unfold var_at. rewrite runM_bind, run_with_fuel, run_var by (unfold blen in *; lia).
  destruct (Z.leb_spec (blen b) k); [reflexivity|]. cbv zeta. rewrite runM_ret. split; [reflexivity|].
  pose proof (var_bytes_len (rest b k)) as Hl. rewrite blen_rest in Hl by lia. pose proof (blen_nonneg (var_bytes (rest b k))). lia.
Qed.
Lemma d_uintvar : runs_dec (p_MotorolaBinaryXml_Uintvar rt) uintvar_at.
Proof. apply d_var. reflexivity. Qed.
Lemma d_sintvar : runs_dec (p_MotorolaBinaryXml_Sintvar rt) sintvar_at.
Proof. apply d_var. reflexivity. Qed.

Lemma d_two m1 f1 m2 f2 cls n1 n2 : runs_dec m1 f1 -> runs_dec m2 f2 -> runs_dec (obj cls [(n1, m1); (n2, m2)]) (two_vars cls n1 n2 f1 f2).
Proof.
  intros H1 H2 b k Hk. unfold obj, two_vars. cbn [seq]. rewrite !step_assoc.
  eapply step_dec; [exact H1|lia|]. intros v e _ He. cbn [fst snd]. rewrite !step_assoc.
  eapply step_dec; [exact H2|lia|]. intros v2 e2 _ He2. cbn [fst snd].
  repeat first [rewrite step_assoc | rewrite step_ret]. rewrite runM_ret. split; [reflexivity|lia].
Qed.
Lemma d_one m f cls n : runs_dec m f -> runs_dec (obj cls [(n, m)]) (fun b k => let* x := f b k in Ok (VObj cls [(n, fst x)], snd x)).
Proof.
  intros H1 b k Hk. unfold obj. cbn [seq]. rewrite !step_assoc.
  eapply step_dec; [exact H1|lia|]. intros v e _ He. cbn [fst snd].
  repeat first [rewrite step_assoc | rewrite step_ret]. rewrite runM_ret. split; [reflexivity|lia].
Qed.
Lemma d_ufloatvar : runs_dec (p_MotorolaBinaryXml_Ufloatvar rt) ufloatvar_at.
Proof. apply d_two; apply d_uintvar. Qed.
Lemma d_sfloatvar : runs_dec (p_MotorolaBinaryXml_Sfloatvar rt) sfloatvar_at.
Proof. apply d_two; [apply d_sintvar|apply d_uintvar]. Qed.
Lemma d_cdt_reference : runs_dec (p_MotorolaBinaryXml_ConstantDataTableReference rt) cdt_reference_at.
Proof. apply d_one, d_uintvar. Qed.

Lemma d_opaque : runs_dec (p_MotorolaBinaryXml_OpaqueElementValue rt) opaque_at.
Proof.
  intros b k Hk. unfold p_MotorolaBinaryXml_OpaqueElementValue, opaque_at. cbv zeta.
  rewrite runM_bind, run_read_u1 by zside. change (0 + 8) with 8.
  destruct (fits b k 8) eqn:Hf.
  - apply fits_iff in Hf. destruct (Z.ltb_spec (blen b) (k + 1)); [lia|]. cbv iota beta.
    rewrite Z.add_0_r. pose proof (ubits_bound b (8 * k) 8 ltac:(lia)). rewrite at_byte by reflexivity. change (8 / 8) with 1.
    apply step_bytes; [lia|]. intros. leaf.
  - apply fits_niff in Hf. destruct (Z.ltb_spec (blen b) (k + 1)); [reflexivity|lia].
Qed.

Lemma d_lrrp_element : runs_dec (p_MotorolaBinaryXml_LrrpElement rt) lrrp_element_at.
Proof.
  intros b k Hk. unfold p_MotorolaBinaryXml_LrrpElement, lrrp_element_at. flds. pos. rewrite ?Z.add_0_r.
  pick (ubits b (8 * k) 8) [(0x22, 0); (0x23, 0); (0x24, 0)].
  all: first [eapply step_part; [first [apply d_opaque | apply d_cdt_reference | dec_tab]|blens|]; intros ? ? ? ?; cbn [fst snd] | apply step_nopart; cbn [fst snd]].
  all: leaf.
Qed.
Lemma d_lrrp_request : runs_dec (p_MotorolaBinaryXml_LrrpImmediateRequestNcdt rt) lrrp_request_at.
Proof. apply d_one, d_lrrp_element. Qed.

Lemma d_document_strict b k : 0 <= k <= blen b -> agrees b (k + 1) (runM (p_MotorolaBinaryXml_MbxmlDocument rt) (at_ b k 0)) (document_at b k).
Proof.
  intros Hk. unfold p_MotorolaBinaryXml_MbxmlDocument, document_at. flds. pos. rewrite ?Z.add_0_r.
  eapply step_dec; [apply d_uintvar|blens|]. intros v e _ He. cbn [fst snd].
  pick (ubits b (8 * k) 8) [(0x05, 0)].
  all: first [eapply step_part; [apply d_lrrp_request|blens|]; intros ? ? ? ?; cbn [fst snd] | apply step_nopart; cbn [fst snd]].
  all: leaf.
Qed.
Lemma d_document : runs_dec (p_MotorolaBinaryXml_MbxmlDocument rt) document_at.
Proof. intros b k Hk. eapply agrees_lower; [|apply d_document_strict; assumption]. lia. Qed.

Lemma document_at_end b : document_at b (blen b) = Err EOFError.
Proof.
  unfold document_at. cbn [fields decode f_off f_kind f_name kwidth nwidth].
  assert (E : fits b (blen b) (0 + 8) = false) by (apply fits_niff; lia). rewrite E. reflexivity.
Qed.

Lemma mbxml_meets b : from_bytes (p_MotorolaBinaryXml rt) b = mbxml_spec b.
Proof.
  rewrite from_bytes_runM, at_init. pose proof (blen_nonneg b).
  unfold p_MotorolaBinaryXml, mbxml_spec. rewrite runM_bind, run_with_fuel. cbn [mbxml_documents]. rewrite runM_bind.
  pose proof (d_document_strict b 0 ltac:(lia)) as D. unfold agrees in D.
  destruct (document_at b 0) as [[d e]|y] eqn:Hd; [|rewrite D; reflexivity].
  destruct D as [-> He]. cbn [rbind fst snd].
  erewrite step_ok by (apply run_is_eof; zside). change (0 / 8) with 0. rewrite Z.add_0_r.
  destruct (Z.leb_spec (blen b) e), (Z.ltb_spec e (blen b)); try lia; cbn [negb]; cbv iota.
  - destruct b as [|x b']; [change (blen []) with 0 in *; lia|].
    cbn [List.length mbxml_documents]. rewrite !runM_bind. pose proof (d_document_strict (x :: b') e ltac:(lia)) as D2. unfold agrees in D2.
    replace e with (blen (x :: b')) in * by lia. rewrite document_at_end in D2. rewrite D2. reflexivity.
  - rewrite runM_ret. reflexivity.
Qed.

End S.
