(** * C59: the object determines the packet.

    No class forgets anything it has read: if parsing two byte strings gives the same object (the same attributes
    with the same values, with the lazily computed attributes that parsing itself has evaluated), then both runs have
    read the same number of bits, and these bits are the same.  The one exception is TextMessageProtocol. *)
From Coq Require Import Lia.
From Verif Require Import PyBase Runtime Spec RuntimeProofs Codec AllParsers Ksy KsyDefs MotorolaModel HyteraModel PropKsy InjCheck InjProofs.
Open Scope string_scope.
Open Scope list_scope.
Open Scope Z_scope.

(** How much of the input has been read. *)
Definition bits_read (s : stream) : Z := 8 * Z.of_nat (s_pos s) - s_left s.
Definition all_read (s : stream) (b : bytes) : Prop := s_pos s = List.length b /\ s_left s = 0.

Definition lossy : list string := ["MotTextMessageProtocol"].
(** classes that can end in the middle of a byte *)
Definition ends_in_bits : list string :=
  ["FullLinkControl"; "MotTextMessageProtocol_TextMessageHeaderSequenceAndEncoding"; "MotTextMessageProtocol_TmsAcknowledgementHeaderSequenceNumber"].
Definition among (x : string) (l : list string) : bool := existsb (String.eqb x) l.

Lemma checked : forallb (fun d => among (fst d) lossy || (keeps (snd d) && deep_typ (snd d) && (among (fst d) ends_in_bits || typ_keeps (snd d)))) definitions = true.
Proof. vm_compute. reflexivity. Qed.
Lemma bits_at b o : 0 <= o -> bits_read (at_ b 0 o) = o.
Proof.
  intros H. Local Transparent at_. unfold bits_read, at_. cbn [s_pos s_left]. rewrite Z2Nat.id; [|pose proof (Z.div_pos (o + 7) 8); lia].
  Ltac Zify.zify_post_hook ::= Z.div_mod_to_equations. lia. Local Opaque at_.
Qed.
Lemma same_reading name p : In (name, p) all_parsers -> among name lossy = false -> forall rt b1 b2 v s1 s2,
  p rt (stream_of b1) = (Ok v, s1) -> p rt (stream_of b2) = (Ok v, s2) ->
  exists o, s1 = at_ b1 0 o /\ s2 = at_ b2 0 o /\ here b1 b2 o /\ (among name ends_in_bits = false -> o mod 8 = 0).
Proof.
  intros Hp Hl rt b1 b2 v s1 s2 R1 R2. destruct (In_nth_error _ _ Hp) as [i HP].
  assert (exists T, nth_error definitions i = Some (name, T)) as [T HT].
  { pose proof (map_nth_error fst _ _ HP) as A. rewrite <- C54_every_parser_has_its_definition in A. cbn [fst] in A. rewrite nth_error_map in A. destruct (nth_error definitions i) as [[n T]|]; [|discriminate]. exists T. cbn in A. congruence. }
  pose proof (proj1 (forallb_forall _ _) checked _ (nth_error_In _ _ HT)) as C. cbn [fst snd] in C. rewrite Hl in C. cbn [orb] in C. apply andb_true_iff in C as [C C3]. apply andb_true_iff in C as [C1 C2].
  rewrite <- (C54_parsers_implement_their_definitions i name T p HT HP) in R1, R2.
  destruct (same_read rt b1 b2 T v s1 s2 C1 C2 R1 R2) as [o [E1 [E2 [Hh Ho]]]]. exists o. split; [exact E1|]. split; [exact E2|]. split; [exact Hh|]. intros Hn. rewrite Hn in C3. exact (Ho C3).
Qed.

(** ** The theorem: for every class but one, under either runtime, for all inputs *)
Theorem C59_same_object_same_bits : forall name p, In (name, p) all_parsers -> name <> "MotTextMessageProtocol" ->
  forall rt b1 b2 v s1 s2, p rt (stream_of b1) = (Ok v, s1) -> p rt (stream_of b2) = (Ok v, s2) ->
  bits_read s1 = bits_read s2 /\ 0 <= bits_read s1 <= 8 * blen b1 /\ bits_read s1 <= 8 * blen b2 /\
  forall i, 0 <= i < bits_read s1 -> bit b1 i = bit b2 i.
Proof.
  intros name p Hp Hn rt b1 b2 v s1 s2 R1 R2. assert (Hl : among name lossy = false) by (cbn; destruct (String.eqb_spec name "MotTextMessageProtocol"); [contradiction|reflexivity]).
  destruct (same_reading name p Hp Hl rt b1 b2 v s1 s2 R1 R2) as [o [-> [-> [[H1 [H2 H3]] _]]]]. rewrite !bits_at by lia. split; [reflexivity|]. split; [exact H1|]. split; [exact H2|]. exact H3.
Qed.

Local Transparent bit.
Lemma bit_byte b k j : 0 <= k -> 0 <= j < 8 -> bit b (8 * k + j) = Z.testbit (bz (nth (Z.to_nat k) b Byte.x00)) (7 - j).
Proof. intros Hk Hj. unfold bit. replace ((8 * k + j) / 8) with k by lia. replace ((8 * k + j) mod 8) with j by lia. reflexivity. Qed.
Lemma byte_bits x y : (forall j, 0 <= j < 8 -> Z.testbit (bz x) (7 - j) = Z.testbit (bz y) (7 - j)) -> x = y.
Proof.
  intros H. apply bz_inj. apply Z.bits_inj'. intros n Hn. destruct (Z.lt_ge_cases n 8) as [L|L].
  - replace n with (7 - (7 - n)) by lia. apply H. lia.
  - assert (Hi : forall z, bz z < 2 ^ n) by (intros z; pose proof (bz_range z); apply Z.lt_le_trans with (2 ^ 8); [change (2 ^ 8) with 256; lia|apply Z.pow_le_mono_r; lia]).
    assert (B : forall z, Z.testbit (bz z) n = false).
    { intros z. pose proof (bz_range z). destruct (Z.eq_dec (bz z) 0) as [->|]; [apply Z.bits_0|]. apply Z.bits_above_log2; [lia|]. apply Z.log2_lt_pow2; [lia|apply Hi]. }
    now rewrite !B.
Qed.
Lemma same_bytes n b1 b2 : (n <= List.length b1)%nat -> (n <= List.length b2)%nat -> (forall i, 0 <= i < 8 * Z.of_nat n -> bit b1 i = bit b2 i) -> firstn n b1 = firstn n b2.
Proof.
  intros L1 L2 H. apply nth_ext with (d := Byte.x00) (d' := Byte.x00); [now rewrite !firstn_length_le|]. intros k Hk. rewrite firstn_length_le in Hk by assumption.
  assert (N : forall b : bytes, nth k (firstn n b) Byte.x00 = nth k b Byte.x00).
  { intros b. revert n k Hk L1 L2 H. clear. intros n k Hk _ _ _. revert k Hk b. induction n as [|n IH]; intros k Hk b; [lia|]. destruct b as [|x b]; [reflexivity|]. destruct k as [|k]; [reflexivity|]. cbn [firstn nth]. apply IH. lia. }
  rewrite !N. apply byte_bits. intros j Hj. pose proof (H (8 * Z.of_nat k + j) ltac:(lia)) as E. rewrite !bit_byte in E by lia. rewrite !Nat2Z.id in E. exact E.
Qed.

(** In bytes: a parser that has read the same object has taken the same bytes from the front of both inputs, for every class whose
    definition ends at a byte boundary. *)
Theorem C59_same_object_same_bytes : forall name p, In (name, p) all_parsers -> name <> "MotTextMessageProtocol" -> ~ In name ends_in_bits ->
  forall rt b1 b2 v s1 s2, p rt (stream_of b1) = (Ok v, s1) -> p rt (stream_of b2) = (Ok v, s2) ->
  s_pos s1 = s_pos s2 /\ firstn (s_pos s1) b1 = firstn (s_pos s2) b2.
Proof.
  intros name p Hp Hn He rt b1 b2 v s1 s2 R1 R2. assert (Hl : among name lossy = false) by (cbn; destruct (String.eqb_spec name "MotTextMessageProtocol"); [contradiction|reflexivity]).
  destruct (same_reading name p Hp Hl rt b1 b2 v s1 s2 R1 R2) as [o [-> [-> [[H1 [H2 H3]] Ho]]]].
  assert (Ha : o mod 8 = 0).
  { apply Ho. destruct (among name ends_in_bits) eqn:E; [|reflexivity]. exfalso. apply He. apply existsb_exists in E as [x [Hx Ex]]. apply String.eqb_eq in Ex. now subst. }
  rewrite !at_aligned_state by exact Ha. cbn [s_pos]. split; [reflexivity|]. unfold blen in *. apply same_bytes; [lia|lia|]. intros i Hi. apply H3. lia.
Qed.

(** If nothing is left over: different packets give different objects. *)
Theorem C59_different_packets_different_objects : forall name p, In (name, p) all_parsers -> name <> "MotTextMessageProtocol" ->
  forall rt b1 b2 v1 v2 s1 s2, p rt (stream_of b1) = (Ok v1, s1) -> p rt (stream_of b2) = (Ok v2, s2) ->
  all_read s1 b1 -> all_read s2 b2 -> b1 <> b2 -> v1 <> v2.
Proof.
  intros name p Hp Hn rt b1 b2 v1 v2 s1 s2 R1 R2 [A1 L1] [A2 L2] Hb ->. apply Hb.
  destruct (C59_same_object_same_bits name p Hp Hn rt b1 b2 v2 s1 s2 R1 R2) as [E [_ [_ H]]]. unfold bits_read in *. rewrite A1, L1 in *. rewrite A2, L2 in E.
  rewrite <- (firstn_all b1). rewrite <- (firstn_all b2). replace (List.length b2) with (List.length b1) at 1 by lia. apply same_bytes; [lia|lia|]. intros i Hi. apply H. lia.
Qed.

(** ** The exception: a text message whose header has no encoding byte uses 5 bits of the next byte and skips the other 3 *)
Theorem C59_text_message_drops_three_bits : exists p b1 b2, In ("MotTextMessageProtocol", p) all_parsers /\ b1 <> b2 /\
  forall rt, exists v s1 s2, p rt (stream_of b1) = (Ok v, s1) /\ p rt (stream_of b2) = (Ok v, s2) /\ s_pos s1 = List.length b1 /\ s_pos s2 = List.length b2.
Proof.
  exists p_MotTextMessageProtocol, (B [0x00; 0x06; 0x80; 0x00; 0x00; 0x00; 0x41; 0x00]), (B [0x00; 0x06; 0x80; 0x00; 0x00; 0x07; 0x41; 0x00]).
  split; [apply (nth_error_In all_parsers 140); reflexivity|]. split; [vm_compute; discriminate|].
  intros rt. destruct rt; do 3 eexists; (split; [vm_compute; reflexivity|]; split; [vm_compute; reflexivity|]; vm_compute; repeat split).
Qed.

(** ** A concrete case: two packets of the Hytera application protocol that differ in one bit *)
Example C59_example : forall rt, let b1 := B [0x11; 0; 3; 0; 4; 0x0a; 0x23; 0x38; 0x63; 0x63; 3] in let b2 := B [0x11; 0; 3; 0; 4; 0x0a; 0x23; 0x39; 0x63; 0x63; 3] in
  exists v1 v2 s1 s2, p_HyteraDmrApplicationProtocol rt (stream_of b1) = (Ok v1, s1) /\ p_HyteraDmrApplicationProtocol rt (stream_of b2) = (Ok v2, s2) /\
    all_read s1 b1 /\ all_read s2 b2 /\ bits_read s1 = 88 /\ v1 <> v2.
Proof.
  intros rt b1 b2.
  assert (R : exists v1 v2 s1 s2, p_HyteraDmrApplicationProtocol rt (stream_of b1) = (Ok v1, s1) /\ p_HyteraDmrApplicationProtocol rt (stream_of b2) = (Ok v2, s2) /\ all_read s1 b1 /\ all_read s2 b2 /\ bits_read s1 = 88).
  { unfold all_read. destruct rt; do 4 eexists; (split; [vm_compute; reflexivity|]; split; [vm_compute; reflexivity|]; vm_compute; repeat split). }
  destruct R as [v1 [v2 [s1 [s2 [R1 [R2 [A1 [A2 A3]]]]]]]]. exists v1, v2, s1, s2. split; [exact R1|]. split; [exact R2|]. split; [exact A1|]. split; [exact A2|]. split; [exact A3|].
  apply (C59_different_packets_different_objects "HyteraDmrApplicationProtocol" p_HyteraDmrApplicationProtocol) with (rt := rt) (b1 := b1) (b2 := b2) (s1 := s1) (s2 := s2); try assumption.
  - apply (nth_error_In all_parsers 116). reflexivity.
  - discriminate.
  - unfold b1, b2. vm_compute. discriminate.
Qed.
Definition C59_all := (C59_same_object_same_bits, C59_same_object_same_bytes, C59_different_packets_different_objects, C59_text_message_drops_three_bits).
Print Assumptions C59_all.
