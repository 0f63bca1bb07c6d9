(** Property C65 (see properties.jsonl): one object shared by several threads.

    The code of a property is cut into atomic steps (ThreadModel.v); a schedule says which thread takes the next step. *)
From Verif Require Import PyBase Runtime Codec Spec Enums RuntimeProofs EnumProofs Getters GetterProofs EtsiModel HomebrewModel HyteraModel MotorolaModel LazyModel EtsiSpec EtsiProofs EtsiHeader EtsiCor DecSpec HyteraSpec HyteraProofs HyteraProofs2 HyteraCor3 PropHytera2 PropHytera3 AllParsers PropSchema KsySchema SessionModel SessionProofs ThreadModel ThreadProofs ThreadSafe ThreadAlone ThreadRace.
Open Scope string_scope.
Open Scope list_scope.
Open Scope Z_scope.

(** * Specification *)

(** The accesses during which the stream is moved: class and property.  (All others: stored attributes, properties
    computed from stored attributes, and properties whose value has been cached.) *)
Definition moves_the_stream : list (string * string) := [
  ("DmrDataHeader", "data"); ("LocationProtocol", "opcode"); ("Homebrew2015", "fifth_letter"); ("Mmdvm2020", "fifth_letter")].
(** [x] is cached in the object. *)
Definition computed (o : live) (x : string) : Prop := lookup ("_m_" ++ x)%string (l_attrs o) <> None.
(** What a thread was told for the accesses it has finished: what a single-threaded program is told. *)
Definition as_if_alone (rt : runtime) (c : string) (o : live) (xs : list string) : list (string * res pyval) :=
  map (fun x => (x, fst (ask rt c x o))) xs.
(** The body that the header's own format selects, decoded from the twelve octets from octet [k] on. *)
Definition body_from (b : bytes) (k : Z) : res pyval :=
  match select (ubits b 4 4) data_header_bodies with
  | Some f => f (slice b k 12) 0
  | None => Ok (VObj "DmrDataHeader.DataHeaderUndefined" [("bytedata", VBytes (slice b k 12))])
  end.

(** * The code, uninterrupted, is the property *)
(** The same outcome, the same stream, the same attributes - but for [_raw__m_data], which only the code leaves. *)
Theorem C65_uninterrupted : forall (rt : runtime) (c x : string) (o : live),
  (c = "DmrDataHeader" -> x = "data" -> lookup "data_packet_format" (l_attrs o) <> None) ->
  let '(r, o1) := alone (code rt c x) o in
  let '(r', o2) := ask rt c x o in
  let others a := filter (fun nv : string * pyval => negb (String.eqb (fst nv) "_raw__m_data")) a in
  r = r' /\ l_io o1 = l_io o2 /\ others (l_attrs o1) = others (l_attrs o2).
Proof.
  intros rt c x o H. pose proof (alone_code rt c x o H) as A. unfold same_live in A. destruct (alone (code rt c x) o) as [r o1], (ask rt c x o) as [r' o2]. exact A.
Qed.

(** * Accesses that leave the stream alone can be interleaved in any way *)
Lemma nodup_classes : nodup_s (map fst all_parsers) = true.
Proof. unfold all_parsers. cbn [map fst app]. vm_compute. reflexivity. Qed.
Lemma parser_of n (p q : runtime -> M pyval) : In (n, p) all_parsers -> In (n, q) all_parsers -> p = q. Proof. exact (nodup_unique _ nodup_classes n p q). Qed.
Lemma rtp_opened rt b o : open_object (p_RealTimeTransportProtocol rt) b = Ok o -> computed o "len_padding" /\ (computed o "len_padding_if_exists" \/ rtp_padding_bit o = Ok false).
Proof.
  intros O. destruct (open_from _ _ _ O) as [cls E]. revert E. rewrite C38_rtp_decoding. cbv zeta. destruct (blen b <? 1); [discriminate|]. destruct (negb _); [discriminate|]. destruct (blen b <? _); [discriminate|]. destruct (blen b <? _); [discriminate|].
  intros E. assert (Ea : l_attrs o = _) by (injection E; intros X _; symmetry; exact X). unfold computed, rtp_padding_bit. rewrite Ea. unfold rtp_head. destruct (bit b 2), (bit b 3); cbn; split; first [discriminate|left; discriminate|right; reflexivity].
Qed.
Lemma opened_harmless rt c p b o x : In (c, p) all_parsers -> open_object (p rt) b = Ok o -> is_cache x = false -> ~ In (c, x) moves_the_stream -> harmless c o x.
Proof.
  intros I O X N. split; [exact X|]. intros F. cbn [file_properties In] in F. decompose [or] F; try contradiction.
  all: match goal with H : (_, _) = (_, _) |- _ => injection H as <- <- end; try (exfalso; apply N; cbn; tauto).
  - left. assert (p = p_TelemetryProtocol) as -> by (apply (parser_of _ _ _ I), (nth_error_In all_parsers 106); reflexivity).
    destruct (open_from _ _ _ O) as [cls E]. revert E. rewrite C29_telemetry_decoding. unfold stand_alone, tp_intended, tp_selected_at, L_TelemetryProtocol.
    destruct (fields b 0 _) as [h|] eqn:Hh; [|discriminate]. cbn [rbind]. destruct (part _ _ b (0 + 4)) as [d|]; [|discriminate]. cbn [rbind rmap fst]. intros E. injection E as _ <-.
    rewrite lookup_app. destruct (lookup _ h); [discriminate|]. discriminate.
  - assert (p = p_RealTimeTransportProtocol) as -> by (apply (parser_of _ _ _ I), (nth_error_In all_parsers 127); reflexivity). destruct (rtp_opened rt b o O) as [_ [H|H]]; [left; exact H|right; auto].
  - assert (p = p_RealTimeTransportProtocol) as -> by (apply (parser_of _ _ _ I), (nth_error_In all_parsers 127); reflexivity). destruct (rtp_opened rt b o O) as [H _]. left. exact H.
Qed.
(** Every object fresh from its constructor, any number of threads, any accesses but those four, any schedule: every
    answer is the one a single thread gets, the stream and the public attributes are as before; and a thread that gets
    six steps per access is done (nothing ever waits). *)
Theorem C65_any_schedule : forall (rt : runtime) (c : string) (p : runtime -> M pyval) (b : bytes) (o : live) (schedule : list nat) (todos : list (list string)),
  In (c, p) all_parsers -> open_object (p rt) b = Ok o ->
  (forall todo x, In todo todos -> In x todo -> is_cache x = false /\ ~ In (c, x) moves_the_stream) ->
  let '(ts, o') := threads_run rt c schedule (map new_thread todos) o in
  l_io o' = l_io o /\ (forall n, is_cache n = false -> lookup n (l_attrs o') = lookup n (l_attrs o)) /\
  forall i todo, nth_error todos i = Some todo -> exists t k, nth_error ts i = Some t /\ t_log t = as_if_alone rt c o (firstn k todo) /\
    ((6 * List.length todo <= count_occ Nat.eq_dec schedule i)%nat -> k = List.length todo).
Proof.
  intros rt c p b o schedule todos I O H. apply (safe_run rt c o schedule todos). apply Forall_forall. intros todo T. apply Forall_forall. intros x X. destruct (H todo x T X) as [X1 X2]. exact (opened_harmless rt c p b o x I O X1 X2).
Qed.
(** The four are fine, too, once they have been read: on any object. *)
Theorem C65_once_computed : forall (rt : runtime) (c : string) (o : live) (schedule : list nat) (todos : list (list string)),
  (forall todo x, In todo todos -> In x todo -> is_cache x = false /\ (computed o x \/ ~ In (c, x) file_properties)) ->
  let '(ts, o') := threads_run rt c schedule (map new_thread todos) o in
  l_io o' = l_io o /\ (forall n, is_cache n = false -> lookup n (l_attrs o') = lookup n (l_attrs o)) /\
  forall i todo, nth_error todos i = Some todo -> exists t k, nth_error ts i = Some t /\ t_log t = as_if_alone rt c o (firstn k todo) /\
    ((6 * List.length todo <= count_occ Nat.eq_dec schedule i)%nat -> k = List.length todo).
Proof.
  intros rt c o schedule todos H. apply (safe_run rt c o schedule todos). apply Forall_forall. intros todo T. apply Forall_forall. intros x X. destruct (H todo x T X) as [X1 X2]. split; [exact X1|]. intros F. left. destruct X2 as [X2|X2]; [exact X2|contradiction].
Qed.

(** * [data] of a data header: two threads can spoil it *)
Lemma header_opened b o : open_object p_DmrDataHeader b = Ok o -> s_buf (l_io o) = b /\ lookup "_m_data" (l_attrs o) = None /\ lookup "_raw__m_data" (l_attrs o) = None /\
  lookup "data_packet_format" (l_attrs o) = Some (resolve_enum DmrDataHeader_DataPacketFormats (ubits b 4 4)).
Proof.
  intros O. destruct (header_open b o O) as [[p Hio] [Hf _]]. rewrite Hio. split; [reflexivity|]. destruct (open_from _ _ _ O) as [cls E].
  pose proof (from_bytes_obj "DmrDataHeader" [("skip4", vbits 4); ("data_packet_format", venum DmrDataHeader_DataPacketFormats (read_bits 4))] L_DmrDataHeader ltac:(seqok) b) as B.
  change (obj "DmrDataHeader" [("skip4", vbits 4); ("data_packet_format", venum DmrDataHeader_DataPacketFormats (read_bits 4))]) with p_DmrDataHeader in B. rewrite E in B. revert B. unfold object, L_DmrDataHeader. spec_cbn.
  destruct (fits b 0 4); [|discriminate]. destruct (fits b 0 8); [|discriminate]. cbn [rmap rbind]. intros B. injection B as _ B. rewrite B. split; [reflexivity|]. split; [reflexivity|]. rewrite <- B. exact Hf.
Qed.
Lemma body_from_ok rt b k : from_bytes (data_header_body rt (resolve_enum DmrDataHeader_DataPacketFormats (ubits b 4 4))) (slice b k 12) = body_from b k.
Proof. rewrite data_header_body_ok by exact b. reflexivity. Qed.
(** Whatever the schedule, an access of [data] ends, after at most twelve steps of its thread, with EOFError or with a body
    of the header's own format, made of some twelve consecutive octets of the packet; all other attributes are right. *)
Theorem C65_data_contained : forall (rt : runtime) (b : bytes) (o : live) (schedule : list nat) (todos : list (list string)),
  open_object p_DmrDataHeader b = Ok o ->
  (forall todo x, In todo todos -> In x todo -> is_cache x = false /\ x <> "_raw__m_data") ->
  let '(ts, o') := threads_run rt "DmrDataHeader" schedule (map new_thread todos) o in
  s_buf (l_io o') = b /\
  forall i todo, nth_error todos i = Some todo -> exists t k, nth_error ts i = Some t /\ map fst (t_log t) = firstn k todo /\
    (forall x r, In (x, r) (t_log t) ->
       if String.eqb x "data" then r = Err EOFError \/ exists j, 0 <= j /\ j + 12 <= blen b /\ r = body_from b j
       else r = fst (ask rt "DmrDataHeader" x o)) /\
    ((12 * List.length todo <= count_occ Nat.eq_dec schedule i)%nat -> k = List.length todo).
Proof.
  intros rt b o schedule todos O H. destruct (header_opened b o O) as [HB [HM [HR HF]]].
  pose proof (run_new rt "DmrDataHeader" (DInv rt b o (resolve_enum DmrDataHeader_DataPacketFormats (ubits b 4 4))) 10 (DR rt b o (resolve_enum DmrDataHeader_DataPacketFormats (ubits b 4 4))) schedule todos o (dinv0 rt b o _ HB HM HR)) as R.
  match type of R with (?A -> _) => assert (P : A) end.
  { intros todo T x X. destruct (H todo x T X) as [X1 X2]. apply data_code_leads; assumption. }
  specialize (R P). destruct (threads_run rt "DmrDataHeader" schedule (map new_thread todos) o) as [ts o']. destruct R as [[J1 _] K]. split; [exact J1|].
  intros i todo E. destruct (K i todo E) as [t [done [T [A [[rest ->] F]]]]]. exists t, (List.length done). split; [exact T|]. split; [|split].
  - rewrite firstn_app, Nat.sub_diag, firstn_all, firstn_O, app_nil_r. clear - A. induction A as [|x [y r] d l [E1 E2] A IH]; [reflexivity|]. cbn [map fst snd] in *. rewrite E1. f_equal. exact IH.
  - intros x r X. assert (D : DR rt b o (resolve_enum DmrDataHeader_DataPacketFormats (ubits b 4 4)) x r).
    { clear - A X. induction A as [|y [z q] d l [E1 E2] A IH]; [contradiction|]. cbn [fst snd] in *. destruct X as [X|X]; [|now apply IH]. injection X as <- <-. now rewrite E1. }
    unfold DR in D. destruct (String.eqb x "data"); [|exact D]. destruct D as [D|[v [-> [j [J2 [J3 J4]]]]]]; [left; exact D|]. right. exists j. split; [exact J2|]. split; [exact J3|]. rewrite <- (body_from_ok rt). symmetry. exact J4.
  - intros L. assert (D : done = done ++ rest) by (apply F; exact L). rewrite <- D. reflexivity.
Qed.
(** And that does happen: for every packet of twelve octets or more there is a schedule of two threads that read [data],
    in which the second is told the right body and the first is told EOFError or - in a longer packet - the body made of
    octets 12 to 23; and that wrong body stays. *)
Theorem C65_data_race : forall (rt : runtime) (b : bytes) (o : live), open_object p_DmrDataHeader b = Ok o -> 12 <= blen b ->
  exists schedule, let '(ts, o') := threads_run rt "DmrDataHeader" schedule [new_thread ["data"]; new_thread ["data"]] o in
  map t_log ts = [[("data", if blen b <? 24 then Err EOFError else body_from b 12)]; [("data", body_from b 0)]] /\
  fst (ask rt "DmrDataHeader" "data" o') = (if blen b <? 24 then body_from b 0 else body_from b 12).
Proof.
  intros rt b o O L. exists data_schedule. destruct (header_opened b o O) as [HB [HM [_ HF]]]. pose proof (data_race rt b o _ HB HM HF L) as R. cbv zeta in R. rewrite !body_from_ok in R.
  destruct (threads_run rt "DmrDataHeader" data_schedule [new_thread ["data"]; new_thread ["data"]] o) as [ts o']. destruct R as [-> R]. split; [reflexivity|exact R].
Qed.

(** * [opcode] of a location message, [fifth_letter] of a Homebrew packet: two threads can spoil them for good *)
Theorem C65_opcode_race : forall (rt : runtime) (b : bytes) (o : live), open_object (p_LocationProtocol rt) b = Ok o ->
  exists schedule, let '(ts, o') := threads_run rt "LocationProtocol" schedule [new_thread ["opcode"]; new_thread ["opcode"]] o in
  let op k := Ok (resolve_enum LocationProtocol_LpGeneralTypes (ubits b (8 * k) 8)) in
  map t_log ts = [[("opcode", op 1)]; [("opcode", op 0)]] /\ fst (ask rt "LocationProtocol" "opcode" o') = op 1.
Proof.
  intros rt b o O. exists at_schedule. destruct (open_dec _ _ _ _ (d_lp rt) O) as [cls [e [F B]]]. pose proof (blen_nonneg b) as BN.
  destruct (lp_inv b 0 _ _ ltac:(lia) F) as [d [Hd E]]. assert (Ea : l_attrs o = _) by (injection E; intros X _; exact X).
  assert (HM : lookup "_m_opcode" (l_attrs o) = None) by (rewrite Ea; destruct Hd as [->|[y ->]]; reflexivity).
  assert (L : 4 <= blen b). { revert F. unfold lp_at, L_LocationProtocol. spec_cbn. destruct (fits b 0 16); [|discriminate]. destruct (fits b 0 32) eqn:Ef; [|discriminate]. intros _. apply fits_iff in Ef. lia. }
  pose proof (opcode_race rt b o B HM ltac:(lia)) as R. cbv zeta in *. destruct (threads_run rt "LocationProtocol" at_schedule [new_thread ["opcode"]; new_thread ["opcode"]] o) as [ts o']. destruct R as [-> R]. split; [reflexivity|exact R].
Qed.
Theorem C65_fifth_letter_race : forall (rt : runtime) (c : string) (p : runtime -> M pyval) (b : bytes) (o : live) (v w : pystr),
  In (c, p) [("Homebrew2015", p_Homebrew2015); ("Mmdvm2020", p_Mmdvm2020)] -> open_object (p rt) b = Ok o ->
  ~ computed o "fifth_letter" -> 6 <= blen b -> py_decode ASCII (slice b 4 1) = Ok v -> py_decode ASCII (slice b 5 1) = Ok w ->
  exists schedule, let '(ts, o') := threads_run rt c schedule [new_thread ["fifth_letter"]; new_thread ["fifth_letter"]] o in
  map t_log ts = [[("fifth_letter", Ok (VStr w))]; [("fifth_letter", Ok (VStr v))]] /\ fst (ask rt c "fifth_letter" o') = Ok (VStr w).
Proof.
  intros rt c p b o v w I O N L V W. exists at_schedule.
  assert (B : s_buf (l_io o) = b) by (destruct I as [I|[I|[]]]; injection I as _ <-; eapply open_buf; try exact O; keepsok).
  assert (HM : lookup "_m_fifth_letter" (l_attrs o) = None) by (unfold computed in N; cbn [append] in N; destruct (lookup "_m_fifth_letter" (l_attrs o)); [exfalso; apply N; discriminate|reflexivity]).
  pose proof (fifth_race rt c b o v w ltac:(destruct I as [I|[I|[]]]; injection I as <- _; auto) B HM L V W) as R. destruct (threads_run rt c at_schedule [new_thread ["fifth_letter"]; new_thread ["fifth_letter"]] o) as [ts o']. destruct R as [-> R]. split; [reflexivity|exact R].
Qed.

(** * Cases *)
(** Two threads read both properties of a radio address, in turns: both get both answers. *)
Example C65_any_schedule_case : exists o, open_object (p_RadioIp V011) (B [10; 0; 0; 80]) = Ok o /\
  In ("RadioIp", p_RadioIp) all_parsers /\ (forall x, In x ["radio_ip"; "radio_id"] -> is_cache x = false /\ ~ In ("RadioIp", x) moves_the_stream) /\
  map t_log (fst (threads_run V011 "RadioIp" (List.concat (List.repeat [0; 1]%nat 12)) (map new_thread [["radio_ip"; "radio_id"]; ["radio_id"; "radio_ip"]]) o)) =
    [[("radio_ip", Ok (VStr (lit "10.0.0.80"))); ("radio_id", Ok (VInt 80))]; [("radio_id", Ok (VInt 80)); ("radio_ip", Ok (VStr (lit "10.0.0.80")))]].
Proof.
  eexists. split; [vm_compute; reflexivity|]. split; [apply (nth_error_In all_parsers 68); reflexivity|]. split; [|vm_compute; reflexivity].
  intros x [<-|[<-|[]]]; (split; [reflexivity|]); cbn; intros H; decompose [or] H; try contradiction; discriminate.
Qed.
(** The data header of a short data packet: a thread gets EOFError for the body that the other thread (and a program
    with one thread) gets. *)
Definition header_bytes : bytes := B [0x02; 0x40; 0x00; 0x09; 0x28; 0x00; 0x09; 0xc4; 0x05; 0x00; 0x3d; 0x4b].
Example C65_data_race_case : exists o, open_object p_DmrDataHeader header_bytes = Ok o /\
  map (fun t => map (fun e => match snd e with Ok (VObj c _) => Ok c | Ok _ => Ok "?" | Err e => Err e end) (t_log t)) (fst (threads_run V010 "DmrDataHeader" data_schedule [new_thread ["data"]; new_thread ["data"]] o)) =
    [[Err EOFError]; [Ok "DmrDataHeader.DataHeaderUnconfirmed"]] /\
  computed (snd (ask V010 "DmrDataHeader" "data" o)) "data".
Proof. eexists. split; [vm_compute; reflexivity|]. split; [vm_compute; reflexivity|vm_compute; discriminate]. Qed.
(** Twelve more octets, and what is remembered is the body of the wrong twelve. *)
Definition crc_of (r : res pyval) : option pyval := match r with Ok v => getattr "crc" v | Err _ => None end.
Example C65_data_race_stays : exists o, open_object p_DmrDataHeader (header_bytes ++ B [0;1;2;3;4;5;6;7;8;9;10;11]) = Ok o /\
  crc_of (fst (ask V011 "DmrDataHeader" "data" o)) = Some (VBytes (B [0x3d; 0x4b])) /\
  crc_of (fst (ask V011 "DmrDataHeader" "data" (snd (threads_run V011 "DmrDataHeader" data_schedule [new_thread ["data"]; new_thread ["data"]] o)))) = Some (VBytes (B [10; 11])).
Proof. eexists. split; [vm_compute; reflexivity|]. split; vm_compute; reflexivity. Qed.
(** A location message: a request by its first octet, taken for something else for ever after. *)
Example C65_opcode_race_case : exists o, open_object (p_LocationProtocol V010) (B [0xA0; 1; 0; 8; 0; 0; 0; 7; 10; 0; 0; 1]) = Ok o /\
  fst (ask V010 "LocationProtocol" "opcode" o) = Ok (VEnum "LocationProtocol.LpGeneralTypes" "standard_location_immediate_service" 0xA0) /\
  fst (ask V010 "LocationProtocol" "opcode" (snd (threads_run V010 "LocationProtocol" at_schedule [new_thread ["opcode"]; new_thread ["opcode"]] o))) = Ok (VInt 1).
Proof. eexists. split; [vm_compute; reflexivity|]. split; vm_compute; reflexivity. Qed.
Definition C65_all := (C65_uninterrupted, C65_any_schedule, C65_once_computed, C65_data_contained, C65_data_race, C65_opcode_race, C65_fifth_letter_race).
Print Assumptions C65_all.
