(** Property C57 (see properties.jsonl): a structure is read the same way anywhere in a stream. *)
From Verif Require Import PyBase Runtime Codec Spec RuntimeProofs Enums Getters EtsiModel HomebrewModel HyteraModel MotorolaModel AllParsers PropGeneral2 StableProofs RelocProofs.
Open Scope string_scope.
Open Scope list_scope.
Open Scope Z_scope.

Ltac index x l := lazymatch l with x :: _ => constr:(O) | _ :: ?r => let n := index x r in constr:(S n) end.
Ltac in_list := lazymatch goal with |- In ?x ?l => let l' := eval unfold all_parsers in l in let n := index x l' in apply (nth_error_In l n); reflexivity end.

(** A stream over [before ++ b] whose position is at the first byte of [b]: what a program has in hand after it has
    read [before], and what it passes to [Cls(stream)]. *)
Definition stream_at (before b : bytes) : stream :=
  {| s_buf := before ++ b; s_pos := List.length before; s_bits := 0; s_left := 0 |}.

(** Classes that look at an absolute position of the stream, or at its absolute size. *)
Definition position_dependent : list string :=
  ["TelemetryProtocol"; "HyteraDmrApplicationProtocol"; "HyteraRadioNetworkProtocol"; "HyteraSimpleTransportReliabilityProtocol";
   "Homebrew2015"; "Mmdvm2020"; "IpSiteConnectHeartbeat"; "FullLinkControl"].

Lemma all_relocate : Forall (fun np => existsb (String.eqb (fst np)) position_dependent = true \/ forall rt, relocates (snd np rt)) all_parsers.
Proof.
  unfold all_parsers. repeat (apply Forall_cons; [cbn [fst snd]; cbv beta; first [right; intros rt; solve [auto 2 with reloc]|left; reflexivity]|]). apply Forall_nil.
Qed.
Lemma stream_at_behind before b : stream_at before b = behind before (stream_of b).
Proof. unfold stream_at, behind. cbn [stream_of s_buf s_pos s_bits s_left]. f_equal. lia. Qed.

(** Constructing the class on such a stream gives what [from_bytes(b)] gives (object or exception), and advances the
    stream by as many bytes. *)
Theorem C57_anywhere_in_a_stream : forall (name : string) (p : runtime -> M pyval), In (name, p) all_parsers -> ~ In name position_dependent ->
  forall (rt : runtime) (before b : bytes),
  fst (p rt (stream_at before b)) = from_bytes (p rt) b /\
  s_pos (snd (p rt (stream_at before b))) = (List.length before + s_pos (snd (p rt (stream_of b))))%nat.
Proof.
  intros name p H Hn rt before b. destruct (proj1 (Forall_forall _ _) all_relocate _ H) as [X|X]; cbn [fst snd] in X.
  - apply existsb_exists in X. destruct X as [y [Y1 Y2]]. apply String.eqb_eq in Y2. subst y. contradiction.
  - pose proof (C03_terminates _ _ H rt b) as T. unfold from_bytes in *. rewrite stream_at_behind, (X rt before (stream_of b) T). split; reflexivity.
Qed.

(** Two structures one after the other: after a self-delimiting message has consumed its bytes [b1], the class
    constructed next reads what follows as if nothing had been in front of it. *)
Theorem C57_one_after_the_other : forall (name1 name2 : string) (p1 p2 : runtime -> M pyval),
  In (name1, p1) self_delimiting -> In (name2, p2) all_parsers -> ~ In name2 position_dependent ->
  forall (rt : runtime) (b1 b2 : bytes) (v1 : pyval) (s1 : stream),
  p1 rt (stream_of b1) = (Ok v1, s1) -> s_buf s1 = b1 -> s_pos s1 = List.length b1 ->
  fst (bind (p1 rt) (fun first => align_to_byte;;; second <- p2 rt;; ret (first, second)) (stream_of (b1 ++ b2))) =
  rmap (fun second => (v1, second)) (from_bytes (p2 rt) b2).
Proof.
  intros name1 name2 p1 p2 H1 H2 Hn rt b1 b2 v1 s1 E B P. pose proof (proj1 (Forall_forall _ _) self_delimiting_stable _ H1 rt) as S. cbn [snd] in S.
  unfold bind at 1. change (stream_of (b1 ++ b2)) with (extend (stream_of b1) b2). rewrite (S _ _ _ b2 E). unfold bind, align_to_byte, align_state. cbn [extend s_buf s_pos].
  rewrite B, P. change {| s_buf := b1 ++ b2; s_pos := List.length b1; s_bits := 0; s_left := 0 |} with (stream_at b1 b2).
  destruct (C57_anywhere_in_a_stream _ _ H2 Hn rt b1 b2) as [R _]. rewrite <- R. destruct (p2 rt (stream_at b1 b2)) as [[v|e] s]; reflexivity.
Qed.

(** A Hytera application message that is not a telemetry message (type 0x12) does not depend on its position either. *)
Theorem C57_application_messages : forall (rt : runtime) (before b : bytes), ubits b 1 7 <> 0x12 ->
  fst (p_HyteraDmrApplicationProtocol rt (stream_at before b)) = from_bytes (p_HyteraDmrApplicationProtocol rt) b /\
  s_pos (snd (p_HyteraDmrApplicationProtocol rt (stream_at before b))) = (List.length before + s_pos (snd (p_HyteraDmrApplicationProtocol rt (stream_of b))))%nat.
Proof.
  intros rt before b H. pose proof (hdap_moves rt before b H) as X.
  assert (I : In ("HyteraDmrApplicationProtocol", p_HyteraDmrApplicationProtocol) all_parsers) by in_list.
  pose proof (C03_terminates _ _ I rt b) as T. unfold from_bytes in *. rewrite stream_at_behind, (X T). split; reflexivity.
Qed.

(** Each of the eight classes does depend on its position: the same bytes give another result behind other bytes. *)
Theorem C57_position_dependent_classes : forall name : string, In name position_dependent ->
  exists p, In (name, p) all_parsers /\ forall rt, exists before b, fst (p rt (stream_at before b)) <> from_bytes (p rt) b.
Proof.
  intros name H. unfold position_dependent in H. cbn [In] in H.
  destruct H as [<-|[<-|[<-|[<-|[<-|[<-|[<-|[<-|[]]]]]]]]].
  - exists p_TelemetryProtocol. split; [in_list|]. intros rt. exists (B [0]), (B [0xb0; 0x81; 0; 1; 0]). destruct rt; vm_compute; discriminate.
  - exists p_HyteraDmrApplicationProtocol. split; [in_list|]. intros rt. exists (B [0xb0; 0x81]), (B [0x12; 0xb0; 0x81; 0; 1; 0; 3]). destruct rt; vm_compute; discriminate.
  - exists p_HyteraRadioNetworkProtocol. split; [in_list|]. intros rt. exists (B [0xb0; 0x81]), (B [0x7e; 4; 0; 0; 0x20; 0x10; 0; 1; 0; 24; 0x12; 0x34; 0x12; 0xb0; 0x81; 0; 1; 0; 3]). destruct rt; vm_compute; discriminate.
  - exists p_HyteraSimpleTransportReliabilityProtocol. split; [in_list|]. intros rt. exists (B [0xb0; 0x81]), (B [50; 66; 0; 0; 0; 1; 0x12; 0xb0; 0x81; 0; 1; 0; 3]). destruct rt; vm_compute; discriminate.
  - exists p_Homebrew2015. split; [in_list|]. intros rt. exists (B [0]), (blit "RPTCL" ++ B [0; 0; 1; 2]). destruct rt; vm_compute; discriminate.
  - exists p_Mmdvm2020. split; [in_list|]. intros rt. exists (B [0]), (blit "RPTCL" ++ B [0; 0; 1; 2]). destruct rt; vm_compute; discriminate.
  - exists p_IpSiteConnectHeartbeat. split; [in_list|]. intros rt. exists (B [7]), (B [0]). destruct rt; vm_compute; discriminate.
  - exists p_FullLinkControl. split; [in_list|]. intros rt. exists (B [7; 7]), (B [0; 0; 0; 0; 0; 1; 0; 0; 2; 0xf8]). destruct rt; vm_compute; discriminate.
Qed.

(** A CSBK behind three other bytes; a CSBK directly behind a registration message. *)
Example C57_case : forall rt, In ("DmrCsbk", fun _ => p_DmrCsbk) all_parsers /\ ~ In "DmrCsbk" position_dependent /\
  exists v, fst (p_DmrCsbk (stream_at (B [1; 2; 3]) (B [0xbd; 0; 0x80; 0x0a; 0; 0; 1; 0; 0; 2; 0xab; 0xcd]))) = Ok v /\
  exists r s, p_HyteraDmrApplicationProtocol rt (stream_of (B [0x11; 0; 3; 0; 4; 0x0a; 0x23; 0x38; 0x63; 0x63; 3])) = (Ok r, s) /\
    s_buf s = B [0x11; 0; 3; 0; 4; 0x0a; 0x23; 0x38; 0x63; 0x63; 3] /\ s_pos s = 11%nat.
Proof.
  intros rt. split; [in_list|]. split; [unfold position_dependent; cbn [In]; intuition discriminate|].
  eexists. split; [vm_compute; reflexivity|]. destruct rt; do 2 eexists; (split; [vm_compute; reflexivity|]); split; reflexivity.
Qed.
Definition C57_all := (C57_anywhere_in_a_stream, C57_one_after_the_other, C57_application_messages, C57_position_dependent_classes).
Print Assumptions C57_all.
