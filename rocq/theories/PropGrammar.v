(** * C61: a class accepts exactly the packets its format definition describes.

    The grammar (KsyGrammar.v) builds an object and its bits together, from the format definition alone.  A class parses a packet into
    an object if and only if the packet begins with bits that the grammar derives for that object; in particular every packet that
    is put together according to the definition is accepted, and no other. *)
From Coq Require Import Lia.
From Verif Require Import PyBase Runtime Spec RuntimeProofs Codec CodecSpec AllParsers Ksy KsySchema KsyWire KsyGrammar KsyDefs MotorolaModel HyteraModel EtsiModel HomebrewModel PropKsy InjCheck InjProofs PropInj PropSchema WireProofs GrammarProofs.
Open Scope string_scope.
Open Scope list_scope.
Open Scope Z_scope.

(** Not covered: the one class whose definition throws away bits (C59, C60). *)
Definition uncovered : list string := ["MotTextMessageProtocol"].
(** The classes that evaluate an instance while reading, or contain an object of such a class: their objects keep its value in an attribute [_m_...]. *)
Definition with_instances : list string :=
  ["Homebrew2015"; "Mmdvm2020"; "TextMessageProtocol"; "TelemetryProtocol"; "HyteraDmrApplicationProtocol"; "HyteraRadioNetworkProtocol";
   "HyteraSimpleTransportReliabilityProtocol"; "RealTimeTransportProtocol"; "MotTextMessageProtocol"].
(** The instances evaluated while reading. *)
Definition known : list inst := [I_Homebrew2015_fifth_letter; I_TelemetryProtocol_specific_service; I_TextMessageProtocol_option_sum_len; I_RealTimeTransportProtocol_len_padding_if_exists; I_RealTimeTransportProtocol_len_padding].
Lemma known_ok : env_ok known = true. Proof. vm_compute. reflexivity. Qed.
Lemma all_grammatical : forallb (fun d => among (fst d) uncovered || grammatical known (snd d)) definitions = true.
Proof. vm_compute. reflexivity. Qed.
Lemma most_without_instances : forallb (fun d => among (fst d) with_instances || grammatical [] (snd d)) definitions = true.
Proof. vm_compute. reflexivity. Qed.
Lemma not_among name l : ~ In name l -> among name l = false.
Proof. intros N. destruct (among name l) eqn:E; [|reflexivity]. exfalso. apply N. apply existsb_exists in E as [x [Hx Ex]]. apply String.eqb_eq in Ex. now subst. Qed.
Lemma packet_bits b : span b 0 (8 * blen b) = bytes_bits b.
Proof.
  pose proof (span_bytes b 0 (blen b) ltac:(lia) ltac:(unfold blen; lia) ltac:(lia)) as S. change (8 * 0) with 0 in S. replace (8 * (0 + blen b)) with (8 * blen b) in S by lia. rewrite S.
  Local Transparent slice. unfold slice. Local Opaque slice. change (Z.to_nat 0) with 0%nat. cbn [skipn]. replace (Z.to_nat (blen b)) with (List.length b) by (unfold blen; lia). now rewrite firstn_all.
Qed.
Lemma parser_of name T p : In (name, T) definitions -> In (name, p) all_parsers -> forall rt s, ksy_read rt T s = p rt s.
Proof.
  intros HT Hp rt s. destruct (In_nth_error _ _ Hp) as [i Hi].
  assert (exists T', nth_error definitions i = Some (name, T')) as [T' HT'].
  { pose proof (map_nth_error fst _ _ Hi) as A. rewrite <- C54_every_parser_has_its_definition in A. cbn [fst] in A. rewrite nth_error_map in A. destruct (nth_error definitions i) as [[n T']|]; [|discriminate]. exists T'. cbn in A. congruence. }
  assert (T' = T) as -> by exact (nodup_unique _ nodup_names _ _ _ (nth_error_In _ _ HT') HT). now rewrite (C54_parsers_implement_their_definitions i name T p HT' Hi).
Qed.
Section For.
Context (name : string) (T : typ) (p : runtime -> M pyval).
Hypothesis HT : In (name, T) definitions.
Hypothesis Hp : In (name, p) all_parsers.
Hypothesis Hn : ~ In name uncovered.
Lemma fits_known : grammatical known T = true.
Proof. pose proof (proj1 (forallb_forall _ _) all_grammatical _ HT) as C. cbn [fst snd] in C. rewrite (not_among _ _ Hn) in C. exact C. Qed.
Lemma derives rt b v' s : p rt (stream_of b) = (Ok v', s) -> exists l rest, bytes_bits b = l ++ rest /\ made_object b [] T (without_caches v') l rest /\ s = at_ b 0 (Z.of_nat (List.length l)).
Proof. rewrite <- (parser_of name T p HT Hp). intros R. destruct (grammar_fwd rt b known known_ok T fits_known v' s R) as [l [rest [E [M [_ ->]]]]]. rewrite packet_bits in E. eauto. Qed.
Lemma accepts rt b v l rest : bytes_bits b = l ++ rest -> made_object b [] T v l rest -> exists v', p rt (stream_of b) = (Ok v', at_ b 0 (Z.of_nat (List.length l))) /\ without_caches v' = v.
Proof. rewrite <- (parser_of name T p HT Hp), <- packet_bits. intros E M. destruct (grammar_bwd rt b known known_ok T fits_known v l rest E M) as [v' [R [W _]]]. eauto. Qed.
Lemma no_caches rt b v' s : ~ In name with_instances -> p rt (stream_of b) = (Ok v', s) -> without_caches v' = v'.
Proof.
  intros Hw. rewrite <- (parser_of name T p HT Hp). intros R. pose proof (proj1 (forallb_forall _ _) most_without_instances _ HT) as C. cbn [fst snd] in C. rewrite (not_among _ _ Hw) in C.
  destruct (grammar_fwd rt b [] eq_refl T C v' s R) as [l [rest [E [M [W _]]]]]. now apply tidy_nil.
Qed.
End For.

(** ** The theorem: for 155 of the 156 classes, under either runtime, for all packets and objects *)
Theorem C61_accepts_exactly_the_grammar : forall name T p, In (name, T) definitions -> In (name, p) all_parsers -> ~ In name uncovered ->
  forall rt b v n,
  (exists v' s, p rt (stream_of b) = (Ok v', s) /\ without_caches v' = v /\ bits_read s = n) <->
  (exists l rest, bytes_bits b = l ++ rest /\ Z.of_nat (List.length l) = n /\ made_object b [] T v l rest).
Proof.
  intros name T p HT Hp Hn rt b v n. split.
  - intros [v' [s [R [<- <-]]]]. apply (derives name T p HT Hp Hn) in R as [l [rest [E [M ->]]]]. exists l, rest. rewrite bits_at by lia. auto.
  - intros [l [rest [E [<- M]]]]. destruct (accepts name T p HT Hp Hn rt b v l rest E M) as [v' [R W]]. exists v', (at_ b 0 (Z.of_nat (List.length l))). split; [exact R|]. split; [exact W|]. apply bits_at. lia.
Qed.
(** For 147 of them the object is the derived one, attribute by attribute, with nothing else in it. *)
Theorem C61_exactly_the_object : forall name T p, In (name, T) definitions -> In (name, p) all_parsers -> ~ In name with_instances ->
  forall rt b v n,
  (exists s, p rt (stream_of b) = (Ok v, s) /\ bits_read s = n) <->
  (exists l rest, bytes_bits b = l ++ rest /\ Z.of_nat (List.length l) = n /\ made_object b [] T v l rest).
Proof.
  intros name T p HT Hp Hw rt b v n. assert (Hn : ~ In name uncovered) by (intros [<-|[]]; apply Hw; unfold with_instances; cbn [In]; tauto).
  rewrite <- (C61_accepts_exactly_the_grammar name T p HT Hp Hn rt b v n). split.
  - intros [s [R Hs]]. exists v, s. split; [exact R|]. split; [|exact Hs]. exact (no_caches name T p HT Hp rt b v s Hw R).
  - intros [v' [s [R [<- Hs]]]]. exists s. split; [|exact Hs]. rewrite R. now rewrite (no_caches name T p HT Hp rt b v' s Hw R).
Qed.
(** A packet written as the definition says is accepted, and gives the object it was written from. *)
Theorem C61_well_formed_packets_are_accepted : forall name T p, In (name, T) definitions -> In (name, p) all_parsers -> ~ In name uncovered ->
  forall rt b v, made_object b [] T v (bytes_bits b) [] -> exists v', from_bytes (p rt) b = Ok v' /\ without_caches v' = v.
Proof.
  intros name T p HT Hp Hn rt b v M. destruct (accepts name T p HT Hp Hn rt b v (bytes_bits b) []) as [v' [R W]].
  - now rewrite app_nil_r.
  - exact M.
  - exists v'. split; [|exact W]. unfold from_bytes. now rewrite R.
Qed.
(** A packet no beginning of which the grammar derives is rejected. *)
Theorem C61_other_packets_are_rejected : forall name T p, In (name, T) definitions -> In (name, p) all_parsers -> ~ In name uncovered ->
  forall rt b, (forall v l rest, bytes_bits b = l ++ rest -> ~ made_object b [] T v l rest) -> exists e, from_bytes (p rt) b = Err e.
Proof.
  intros name T p HT Hp Hn rt b N. unfold from_bytes. destruct (p rt (stream_of b)) as [[v|e] s] eqn:R; [|exists e; cbn; reflexivity]. exfalso.
  apply (derives name T p HT Hp Hn) in R as [l [rest [E [M _]]]]. exact (N _ l rest E M).
Qed.
(** The grammar is unambiguous: a packet has at most one reading. *)
Theorem C61_unambiguous : forall name T p, In (name, T) definitions -> In (name, p) all_parsers -> ~ In name uncovered ->
  forall b v l rest v' l' rest', bytes_bits b = l ++ rest -> bytes_bits b = l' ++ rest' -> made_object b [] T v l rest -> made_object b [] T v' l' rest' -> v = v' /\ l = l'.
Proof.
  intros name T p HT Hp Hn b v l rest v' l' rest' E E' M M'.
  destruct (accepts name T p HT Hp Hn V010 b v l rest E M) as [w [R W]]. destruct (accepts name T p HT Hp Hn V010 b v' l' rest' E' M') as [w' [R' W']].
  assert (w = w') by congruence. split; [congruence|]. assert (A : at_ b 0 (Z.of_nat (List.length l)) = at_ b 0 (Z.of_nat (List.length l'))) by congruence. apply (f_equal bits_read) in A. rewrite !bits_at in A by lia.
  rewrite E in E'. apply app_inj in E' as [-> _]; [reflexivity|lia].
Qed.
(** ** What this says for one definition *)
Example C61_generates_rate34 : forall rt serial crc x b, 0 <= serial < 128 -> 0 <= crc < 512 -> blen x = 16 -> bytes_bits b = msb 7 serial ++ msb 9 crc ++ bytes_bits x ->
  from_bytes (p_DmrData_Rate34Confirmed rt) b = Ok (VObj "DmrData.Rate34Confirmed" [("data_block_serial_number", VInt serial); ("crc9", VInt crc); ("user_data", VBytes x)]).
Proof.
  intros rt serial crc x b Hs Hc Hx E. set (v := VObj _ _).
  enough (X : exists s, p_DmrData_Rate34Confirmed rt (stream_of b) = (Ok v, s) /\ bits_read s = Z.of_nat (List.length (bytes_bits b))) by (destruct X as [s [R _]]; unfold from_bytes; now rewrite R).
  apply (C61_exactly_the_object "DmrData_Rate34Confirmed" T_DmrData_Rate34Confirmed (fun rt => p_DmrData_Rate34Confirmed rt)).
  - apply (nth_error_In definitions 15). reflexivity.
  - apply (nth_error_In all_parsers 15). reflexivity.
  - unfold with_instances, In. intuition discriminate.
  - exists (bytes_bits b), []. rewrite app_nil_r. split; [reflexivity|]. split; [reflexivity|]. rewrite E. subst v. change "DmrData.Rate34Confirmed" with (class_name ["dmr_data"; "rate_34_confirmed"]). constructor. unfold T_DmrData_Rate34Confirmed.
    apply (G_present _ _ _ "data_block_serial_number" _ _ _ _ _ (Some (VInt serial))); [reflexivity|constructor; apply (G_bits _ _ None 7); exact Hs|].
    apply (G_present _ _ _ "crc9" _ _ _ _ _ (Some (VInt crc))); [reflexivity|constructor; apply (G_bits _ _ None 9); exact Hc|]. rewrite <- (app_nil_r (bytes_bits x)).
    apply (G_present _ _ _ "user_data" _ _ _ _ _ (Some (VBytes x))); [reflexivity|constructor; constructor; cbn [value]; now rewrite Hx|]. constructor.
Qed.
(** RTP with padding: the last byte of the packet counts the bytes of padding, itself included; what is between is audio. *)
Lemma bytes_bits_app x y : bytes_bits (x ++ y) = bytes_bits x ++ bytes_bits y.
Proof. unfold bytes_bits. apply flat_map_app. Qed.
Example C61_generates_padded_rtp : forall rt marker kind number time source h audio pad b,
  0 <= kind < 128 -> 0 <= number < 65536 -> 0 <= time < 2 ^ 32 -> 0 <= source < 2 ^ 32 -> pad <> [] -> bz (last pad Byte.x00) = blen pad ->
  bytes_bits h = msb 2 2 ++ [true] ++ [false] ++ msb 4 0 ++ [marker] ++ msb 7 kind ++ int_bits U2be number ++ int_bits U4be time ++ int_bits U4be source ->
  b = (h ++ audio ++ pad)%list ->
  exists v, from_bytes (p_RealTimeTransportProtocol rt) b = Ok v /\ without_caches v =
    VObj "RealTimeTransportProtocol"
      [("fixed_header", VObj "RealTimeTransportProtocol.FixedHeader" [("version", VInt 2); ("padding", VBool true); ("extension", VBool false); ("num_csrc", VInt 0); ("marker", VBool marker);
         ("payload_type", VInt kind); ("sequence_number", VInt number); ("timestamp", VInt time); ("ssrc", VInt source); ("csrc", VList [])]);
       ("audio_data", VBytes audio); ("padding", VBytes pad)].
Proof.
  intros rt marker kind number time source h audio pad b Hk Hn Ht Hs Hp Hl Hh Hb.
  apply (C61_well_formed_packets_are_accepted "RealTimeTransportProtocol" T_RealTimeTransportProtocol (fun rt => p_RealTimeTransportProtocol rt)).
  1: apply (nth_error_In definitions 127); reflexivity. 1: apply (nth_error_In all_parsers 127); reflexivity. 1: unfold uncovered, In; intuition discriminate.
  assert (Lh : blen b = 12 + blen audio + blen pad).
  { apply (f_equal (@List.length bool)) in Hh. rewrite bytes_bits_length in Hh. repeat rewrite app_length in Hh. rewrite !msb_length, !int_bits_length in Hh. cbn in Hh. rewrite Hb. unfold blen. rewrite !app_length. lia. }
  assert (Lp : 0 < blen pad) by (destruct pad; [contradiction|unfold blen; cbn [List.length]; lia]).
  assert (Fnd : found b None (TInt U1) (blen b - 1) = Some (VInt (blen pad))).
  { unfold found. replace (0 <=? blen b - 1) with true by (symmetry; apply Z.leb_le; unfold blen in *; lia). replace (blen b - 1 + 1 <=? blen b) with true by (symmetry; apply Z.leb_le; lia). cbn [andb numeral]. do 2 f_equal.
    rewrite ubits_byte by (unfold blen in *; lia). rewrite <- Hl. f_equal. rewrite Hb at 2. replace (Z.to_nat (blen b - 1)) with (List.length (h ++ audio) + (List.length pad - 1))%nat.
    - rewrite app_assoc, app_nth2_plus. clear - Hp. destruct (@exists_last _ pad Hp) as [l [x ->]]. rewrite last_last, app_length, app_nth2; cbn; [|lia]. now replace (_ - _ - _)%nat with 0%nat by lia.
    - unfold blen in Lp. rewrite Hb. unfold blen. rewrite !app_length. lia. }
  assert (Eb : bytes_bits b = (msb 2 2 ++ [true] ++ [false] ++ msb 4 0 ++ [marker] ++ msb 7 kind ++ int_bits U2be number ++ int_bits U4be time ++ int_bits U4be source ++ []) ++ bytes_bits audio ++ bytes_bits pad).
  { rewrite Hb, !bytes_bits_app, Hh, app_nil_r. reflexivity. }
  set (hd_ := VObj "RealTimeTransportProtocol.FixedHeader" _). rewrite Eb.
  change "RealTimeTransportProtocol" with (class_name ["real_time_transport_protocol"]). constructor. unfold T_RealTimeTransportProtocol.
  apply (G_present _ _ _ "fixed_header" _ _ _ _ _ (Some hd_)); [reflexivity| |].
  - constructor. constructor. subst hd_. change "RealTimeTransportProtocol.FixedHeader" with (class_name ["real_time_transport_protocol"; "fixed_header"]). constructor. unfold T_RealTimeTransportProtocol_FixedHeader.
    apply (G_present _ _ _ "version" _ _ _ _ _ (Some (VInt 2))); [reflexivity|constructor; constructor; apply (G_bits _ _ None 2); lia|].
    apply (G_present _ _ _ "padding" _ _ _ _ _ (Some (VBool true))); [reflexivity|constructor; constructor|].
    apply (G_present _ _ _ "extension" _ _ _ _ _ (Some (VBool false))); [reflexivity|constructor; constructor|].
    apply (G_present _ _ _ "num_csrc" _ _ _ _ _ (Some (VInt 0))); [reflexivity|constructor; apply (G_bits _ _ None 4); lia|].
    apply (G_present _ _ _ "marker" _ _ _ _ _ (Some (VBool marker))); [reflexivity|constructor; constructor|].
    apply (G_present _ _ _ "payload_type" _ _ _ _ _ (Some (VInt kind))); [reflexivity|constructor; apply (G_bits _ _ None 7); lia|].
    apply (G_present _ _ _ "sequence_number" _ _ _ _ _ (Some (VInt number))); [reflexivity|constructor; apply (G_int _ _ None U2be); cbn; lia|].
    apply (G_present _ _ _ "timestamp" _ _ _ _ _ (Some (VInt time))); [reflexivity|constructor; apply (G_int _ _ None U4be); cbn; lia|].
    apply (G_present _ _ _ "ssrc" _ _ _ _ _ (Some (VInt source))); [reflexivity|constructor; apply (G_int _ _ None U4be); cbn; lia|].
    apply (G_present _ _ _ "csrc" _ _ _ _ _ (Some (VList [])) [] [] []); [reflexivity|apply (G_times _ _ _ _ _ 0); [reflexivity|reflexivity|constructor]|constructor].
  - apply G_absent; [reflexivity|].
    apply (G_present _ _ _ "audio_data" _ _ _ _ _ (Some (VBytes audio))); [reflexivity| |].
    + constructor. constructor. change (value b (bytes_bits audio ++ bytes_bits pad ++ []) [[] ++ named "fixed_header" (Some hd_)] VNone (EBin Sub (EBin Sub ESize EPos) (EInst Self I_RealTimeTransportProtocol_len_padding))) with
        (ints (fun x y => VInt (x - y)) (Some (VInt (blen b - (blen b - Z.of_nat (List.length (bytes_bits audio ++ bytes_bits pad ++ [])) / 8)))) (found b None (TInt U1) (blen b - 1))).
      rewrite Fnd. cbn [ints]. do 2 f_equal. rewrite !app_length, !bytes_bits_length. cbn [List.length]. rewrite Nat.add_0_r, Nat2Z.inj_add, !Nat2Z.inj_mul. unfold blen.
      replace (Z.of_nat 8 * Z.of_nat (List.length audio) + Z.of_nat 8 * Z.of_nat (List.length pad)) with ((Z.of_nat (List.length audio) + Z.of_nat (List.length pad)) * 8) by lia. rewrite Z.div_mul by lia. lia.
    + rewrite <- (app_nil_r (bytes_bits pad)). apply (G_present _ _ _ "padding" _ _ _ _ _ (Some (VBytes pad))); [reflexivity| |constructor].
      constructor. constructor. exact Fnd.
Qed.
Definition C61_all := (C61_accepts_exactly_the_grammar, C61_exactly_the_object, C61_well_formed_packets_are_accepted, C61_other_packets_are_rejected, C61_unambiguous, C61_generates_rate34, C61_generates_padded_rtp).
Print Assumptions C61_all.
