(** * C60: a packet is the concatenation of its attributes.

    Every bit that parsing consumes is accounted for by exactly one attribute of the result, in the order in which the format
    definition lists the attributes, without gaps, overlaps or padding: written back to back, the attributes of the object (and of
    the objects and lists inside it) give exactly the bits that were read.  TextMessageProtocol is the one class for which this fails. *)
From Coq Require Import Lia.
From Verif Require Import PyBase Runtime Spec RuntimeProofs Codec CodecSpec AllParsers Ksy KsySchema KsyWire KsyDefs MotorolaModel HyteraModel EtsiModel PropKsy InjCheck InjProofs PropInj PropSchema WireProofs.
Open Scope string_scope.
Open Scope list_scope.
Open Scope Z_scope.

Lemma wire_of name T p : In (name, T) definitions -> In (name, p) all_parsers -> among name lossy = false -> forall rt b v s,
  p rt (stream_of b) = (Ok v, s) -> exists o, s = at_ b 0 o /\ 0 <= o <= 8 * blen b /\ object_wire T v (span b 0 o) /\ (among name ends_in_bits = false -> o mod 8 = 0).
Proof.
  intros HT Hp Hl rt b v s R.
  destruct (In_nth_error _ _ Hp) as [i Hi].
  assert (exists T', nth_error definitions i = Some (name, T')) as [T' HT'].
  { pose proof (map_nth_error fst _ _ Hi) as A. rewrite <- C54_every_parser_has_its_definition in A. cbn [fst] in A. rewrite nth_error_map in A. destruct (nth_error definitions i) as [[n T']|]; [|discriminate]. exists T'. cbn in A. congruence. }
  assert (T' = T) as -> by exact (nodup_unique _ nodup_names _ _ _ (nth_error_In _ _ HT') HT).
  pose proof (proj1 (forallb_forall _ _) checked _ HT) as C. cbn [fst snd] in C. rewrite Hl in C. cbn [orb] in C. apply andb_true_iff in C as [C C3]. apply andb_true_iff in C as [C1 C2].
  rewrite <- (C54_parsers_implement_their_definitions i name T p HT' Hi) in R.
  destruct (wire_read rt b T v s C1 R) as [o [E1 [E2 [Hh Ho]]]]. exists o. split; [exact E1|]. split; [exact E2|]. split; [exact Hh|]. intros Hn. rewrite Hn in C3. exact (Ho C3).
Qed.

Lemma not_lossy name : name <> "MotTextMessageProtocol" -> among name lossy = false.
Proof. intros H. cbn. destruct (String.eqb_spec name "MotTextMessageProtocol"); [contradiction|reflexivity]. Qed.

(** ** The theorem: for every class but one, under either runtime, for all inputs *)
Theorem C60_bits_read_are_the_attributes : forall name T p, In (name, T) definitions -> In (name, p) all_parsers -> name <> "MotTextMessageProtocol" ->
  forall rt b v s, p rt (stream_of b) = (Ok v, s) -> object_wire T v (span b 0 (bits_read s)).
Proof.
  intros name T p HT Hp Hn rt b v s R. destruct (wire_of name T p HT Hp (not_lossy _ Hn) rt b v s R) as [o [-> [Ho [W _]]]]. rewrite bits_at by lia. exact W.
Qed.

(** In bytes, for the classes whose definition ends at a byte boundary *)
Theorem C60_bytes_read_are_the_attributes : forall name T p, In (name, T) definitions -> In (name, p) all_parsers -> name <> "MotTextMessageProtocol" -> ~ In name ends_in_bits ->
  forall rt b v s, p rt (stream_of b) = (Ok v, s) -> object_wire T v (bytes_bits (firstn (s_pos s) b)).
Proof.
  intros name T p HT Hp Hn He rt b v s R. destruct (wire_of name T p HT Hp (not_lossy _ Hn) rt b v s R) as [o [-> [Ho [W Ha]]]].
  assert (A : o mod 8 = 0).
  { apply Ha. destruct (among name ends_in_bits) eqn:E; [|reflexivity]. exfalso. apply He. apply existsb_exists in E as [x [Hx Ex]]. apply String.eqb_eq in Ex. now subst. }
  assert (L : o = 8 * (o / 8)) by lia.
  assert (P : s_pos (at_ b 0 o) = Z.to_nat (o / 8)). { pose proof (bits_at b o ltac:(lia)) as X. revert X. unfold bits_read. Local Transparent at_. unfold at_. cbn [s_pos s_left]. Local Opaque at_. lia. }
  rewrite P. pose proof (span_bytes b 0 (o / 8) ltac:(lia) ltac:(lia) ltac:(lia)) as S. replace (8 * (0 + o / 8)) with o in S by lia. change (8 * 0) with 0 in S. rewrite S in W.
  Local Transparent slice. unfold slice in W. Local Opaque slice. change (Z.to_nat 0) with 0%nat in W. cbn [skipn] in W. exact W.
Qed.

(** A packet of which nothing is left over is its attributes, written one after the other. *)
Theorem C60_packet_is_its_attributes : forall name T p, In (name, T) definitions -> In (name, p) all_parsers -> name <> "MotTextMessageProtocol" ->
  forall rt b v s, p rt (stream_of b) = (Ok v, s) -> all_read s b -> object_wire T v (bytes_bits b).
Proof.
  intros name T p HT Hp Hn rt b v s R [A1 A2]. pose proof (C60_bits_read_are_the_attributes name T p HT Hp Hn rt b v s R) as W. unfold bits_read in W. rewrite A1, A2 in W.
  pose proof (span_bytes b 0 (blen b) ltac:(lia) ltac:(unfold blen; lia) ltac:(lia)) as S. change (8 * 0) with 0 in S. replace (8 * (0 + blen b)) with (8 * Z.of_nat (List.length b) - 0) in S by (unfold blen; lia). rewrite S in W.
  Local Transparent slice. unfold slice in W. Local Opaque slice. change (Z.to_nat 0) with 0%nat in W. cbn [skipn] in W. replace (Z.to_nat (blen b)) with (List.length b) in W by (unfold blen; lia). now rewrite firstn_all in W.
Qed.

(** ** What the relation says for two definitions *)
Example C60_meaning_bits : forall serial crc x l,
  object_wire T_DmrData_Rate34Confirmed (VObj "DmrData.Rate34Confirmed" [("data_block_serial_number", VInt serial); ("crc9", VInt crc); ("user_data", VBytes x)]) l <->
  l = msb 7 serial ++ msb 9 crc ++ bytes_bits x.
Proof.
  intros serial crc x l. split.
  - intros H. inversion H; subst. cbn [public filter fst is_cache] in *. 
    repeat match goal with
    | H : wire_number (VInt _) = Some _ |- _ => injection H as <-
    | H : seq_wire _ _ _ |- _ => inversion H; subst; clear H
    | H : attr_wire _ _ _ _ |- _ => inversion H; subst; clear H
    | H : wire _ _ _ |- _ => inversion H; subst; clear H
    | H : ?r <> ?r |- _ => now contradiction H
    end. now rewrite app_nil_r.
  - intros ->. change "DmrData.Rate34Confirmed" with (class_name ["dmr_data"; "rate_34_confirmed"]). constructor. cbn [public filter fst is_cache].
    rewrite <- (app_nil_r (bytes_bits x)). repeat first [apply W_present; [apply W_once; constructor; reflexivity|]|constructor].
Qed.

(** inversion of the relation, given that the names of a definition differ *)
Lemma seq_wire_names q a l : seq_wire q a l -> forall x v, In (x, v) a -> existsb (String.eqb x) (names q) = true.
Proof.
  revert a l. induction q as [|x c r en t q IH]; intros a l H y v Hi; inversion H; subst; clear H.
  - destruct Hi.
  - cbn [names existsb]. destruct Hi as [E|Hi]; [assert (y = x) as -> by congruence; now rewrite String.eqb_refl|]. rewrite (IH _ _ H9 _ _ Hi). apply orb_true_r.
  - cbn [names existsb]. rewrite (IH _ _ H8 _ _ Hi). apply orb_true_r.
Qed.
Lemma seq_present x c r en t q v a l : existsb (String.eqb x) (names q) = false -> seq_wire (Attr x c r en t q) ((x, v) :: a) l ->
  exists l1 l2, l = l1 ++ l2 /\ attr_wire r t v l1 /\ seq_wire q a l2.
Proof.
  intros N H. inversion H; subst; clear H; [now exists l0, ls|]. exfalso. rewrite (seq_wire_names _ _ _ H8 x v) in N; [discriminate|now left].
Qed.
Lemma seq_missing x c r en t q y v a l : String.eqb x y = false -> seq_wire (Attr x c r en t q) ((y, v) :: a) l -> seq_wire q ((y, v) :: a) l.
Proof. intros N H. inversion H; subst; clear H; [rewrite String.eqb_refl in N; discriminate|assumption]. Qed.
(** TextMessageProtocol: the text does not begin where the header ends; three bits of the packet are in no attribute. *)
Theorem C60_fails_for_text_message : exists b, forall rt, exists v s, p_MotTextMessageProtocol rt (stream_of b) = (Ok v, s) /\ s_pos s = List.length b /\ ~ object_wire T_MotTextMessageProtocol v (bytes_bits b).
Proof.
  exists (B [0x00; 0x06; 0x80; 0x00; 0x00; 0x07; 0x41; 0x00]). intros rt. 
  exists (VObj "TextMessageProtocol"
    [("message_size", VInt 6);
     ("message_header", VObj "TextMessageProtocol.MessageHeaderBits"
        [("extension_bit", VBool true); ("acknowledgement_required", VBool false); ("reserved", VBool false); ("control_user_bit", VBool false); ("pdu_type", VInt 0)]);
     ("len_address", VInt 0); ("_m_custom_pdu_type", VInt 0);
     ("pdu_content", VObj "TextMessageProtocol.TextMessage"
        [("text_message_header_sequence_and_encoding", VObj "TextMessageProtocol.TextMessageHeaderSequenceAndEncoding"
            [("has_encoding_header", VBool false); ("reserved_1", VInt 0); ("sequence_number_lsb_bits", VInt 0); ("encoding", VInt 0)]);
         ("text_message", VStr [65])]);
     ("unparsed_data", VBytes [])]).
  assert (R : forall rt, exists s, p_MotTextMessageProtocol rt (stream_of (B [0x00; 0x06; 0x80; 0x00; 0x00; 0x07; 0x41; 0x00])) = (Ok (VObj "TextMessageProtocol"
    [("message_size", VInt 6);
     ("message_header", VObj "TextMessageProtocol.MessageHeaderBits"
        [("extension_bit", VBool true); ("acknowledgement_required", VBool false); ("reserved", VBool false); ("control_user_bit", VBool false); ("pdu_type", VInt 0)]);
     ("len_address", VInt 0); ("_m_custom_pdu_type", VInt 0);
     ("pdu_content", VObj "TextMessageProtocol.TextMessage"
        [("text_message_header_sequence_and_encoding", VObj "TextMessageProtocol.TextMessageHeaderSequenceAndEncoding"
            [("has_encoding_header", VBool false); ("reserved_1", VInt 0); ("sequence_number_lsb_bits", VInt 0); ("encoding", VInt 0)]);
         ("text_message", VStr [65])]);
     ("unparsed_data", VBytes [])]), s) /\ s_pos s = 8%nat).
  { intros [|]; eexists; (split; vm_compute; reflexivity). }
  destruct (R rt) as [s [R1 R2]]. exists s. split; [exact R1|]. split; [exact R2|]. clear R R1 R2. intros H.
  assert (El : List.length (bytes_bits (B [0; 6; 128; 0; 0; 7; 65; 0])) = 64%nat) by reflexivity. revert H El. generalize (bytes_bits (B [0; 6; 128; 0; 0; 7; 65; 0])) as l. intros l H El.
  inversion H; subst path q a l0; clear H. cbn [public filter fst is_cache] in *. 
  repeat match goal with
    | H : wire_number (VInt _) = Some _ |- _ => injection H as <-
    | H : seq_wire Nil _ _ |- _ => inversion H; subst; clear H
    | H : seq_wire (Attr _ _ _ _ _ _) _ _ |- _ => first [apply seq_present in H as [? [? [? [? ?]]]]; [subst|reflexivity]|apply seq_missing in H; [|reflexivity]]
    | H : attr_wire _ _ _ _ |- _ => inversion H; subst; clear H
    | H : wire _ _ _ |- _ => inversion H; subst; clear H
    | H : case_wire _ _ _ |- _ => inversion H; subst; clear H
    | H : object_wire ?t _ _ |- _ => inversion H; subst; clear H; try discriminate; cbn [public filter fst is_cache] in *
    | H : ?r <> ?r |- _ => now contradiction H
    end.
  all: repeat match goal with H : encode_text _ _ = Some _ |- _ => vm_compute in H; injection H as <- end. all: revert El; vm_compute; discriminate.
Qed.

(** ** A concrete case: a whole packet, nested objects and a list *)
Example C60_example : forall rt, let b := B [0x11; 0; 3; 0; 4; 0x0a; 0x23; 0x38; 0x63; 0x63; 3] in
  exists v s, p_HyteraDmrApplicationProtocol rt (stream_of b) = (Ok v, s) /\ object_wire T_HyteraDmrApplicationProtocol v (bytes_bits b).
Proof.
  intros rt b.
  assert (R : exists v s, p_HyteraDmrApplicationProtocol rt (stream_of b) = (Ok v, s) /\ all_read s b).
  { unfold all_read. destruct rt; do 2 eexists; (split; [vm_compute; reflexivity|]; vm_compute; repeat split). }
  destruct R as [v [s [R A]]]. exists v, s. split; [exact R|].
  apply (C60_packet_is_its_attributes "HyteraDmrApplicationProtocol" T_HyteraDmrApplicationProtocol p_HyteraDmrApplicationProtocol) with (rt := rt) (s := s); try assumption.
  - apply (nth_error_In definitions 116). reflexivity.
  - apply (nth_error_In all_parsers 116). reflexivity.
  - discriminate.
Qed.
Definition C60_all := (C60_bits_read_are_the_attributes, C60_bytes_read_are_the_attributes, C60_packet_is_its_attributes, C60_fails_for_text_message).
Print Assumptions C60_all.
