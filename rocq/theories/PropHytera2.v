(** Properties C28 - C34 (see properties.jsonl): location opcode, telemetry, radio control, HDAP, HRNP, HSTRP.
    Each theorem is followed by a concrete case. *)
From Verif Require Import PyBase Runtime Codec CodecSpec CodecProofs Enums Getters Spec DecSpec BitSpec RuntimeProofs TilesProofs DecProofs DecAlgebra GetterProofs HomebrewCor HyteraModel HyteraSpec HyteraRuns HyteraProofs HyteraProofs2 HyteraProofs3 HyteraCor HyteraCor2 HyteraCor3.
From Coq Require Import ZifyBool.
Ltac Zify.zify_post_hook ::= Z.div_mod_to_equations.
Open Scope string_scope.
Open Scope list_scope.
Open Scope Z_scope.

(** * C28 *)
(** An object read as attribute [n] of another one: it shares the stream of its parent
    (every Hytera class is created as [X(self._io, self, self._root)]). *)
Definition child (n : string) (o : live) : option live :=
  match lookup n (l_attrs o) with
  | Some (VObj _ a) => Some {| l_attrs := a; l_io := l_io o |}
  | _ => None
  end.
(** The derived attributes of the class. *)
Definition LocationProtocol_property (rt : runtime) (x : string) : live -> res pyval * live :=
  if String.eqb x "opcode" then LocationProtocol_opcode rt else no_property x.

(** Whatever the history, [opcode] is the class named by the first byte of the *stream*. *)
Theorem C28_opcode_history : forall rt o ops x t,
  s_buf (l_io o) = x :: t -> forallb (fun nv => negb (is_memo (fst nv))) (l_attrs o) = true ->
  Forall (fun ob =>
    ob_result ob = (if String.eqb (ob_name ob) "opcode" then Ok (resolve_enum LocationProtocol_LpGeneralTypes (bz x)) else Err (AttributeError (ob_name ob))) /\
    (forall v, ob_result ob = Ok v -> ob_after ob = ob_before ob))
  (history rt (LocationProtocol_property rt) ops o).
Proof.
  intros rt o ops x t Hb Hm.
  set (val := fun y => if String.eqb y "opcode" then Ok (resolve_enum LocationProtocol_LpGeneralTypes (bz x)) else Err (AttributeError y)).
  refine (derived_history rt (l_attrs o) val _ o ops eq_refl Hm _).
  assert (V1 : val "opcode" = Ok (resolve_enum LocationProtocol_LpGeneralTypes (bz x))) by reflexivity.
  assert (V3 : forall y, y <> "opcode" -> val y = Err (AttributeError y)).
  { intros y N1. unfold val. destruct (String.eqb_spec y "opcode"); [contradiction|reflexivity]. }
  clearbody val. rewrite Hb.
  intros y o' Ho. unfold LocationProtocol_property. destruct (String.eqb_spec y "opcode") as [->|N1].
  - unfold LocationProtocol_opcode. apply memo_intact; [|exact Ho]. intros a s _ Hs. rewrite V1.
    unfold bind, io_pos, io_seek, venum, read_u1, read_bytes, raw_read_bytes, io_read, ret, bind.
    assert (A : s_buf (auto_align rt (set_pos (auto_align rt s) (Z.to_nat 0))) = x :: t) by (rewrite auto_align_buf; cbn [set_pos s_buf]; rewrite auto_align_buf; exact Hs).
    assert (P : s_pos (auto_align rt (set_pos (auto_align rt s) (Z.to_nat 0))) = 0%nat) by (destruct rt; reflexivity).
    rewrite P. change (1 <? 0) with false. cbn iota. cbn [skipn].  rewrite A.
    assert (G : (if blen (x :: t) <=? 1 then x :: t else firstn (Z.to_nat 1) (x :: t)) = [x]).
    { destruct (Z.leb_spec (blen (x :: t)) 1) as [L|L]; [|reflexivity]. destruct t; [reflexivity|]. unfold blen in L. cbn [List.length] in L. lia. }
    rewrite G. change (blen [x] <? 1) with false. cbn iota.
    split; [|split].
    + reflexivity.
    + cbn [set_pos s_buf]. rewrite auto_align_buf. exact A.
    + intros v _. cbn [set_pos s_pos]. rewrite Nat2Z.id. reflexivity.
  - apply (no_property_intact _ _ _ y o'); [|exact Ho]. apply V3; assumption.
Qed.
Print Assumptions C28_opcode_history.
(** For a message decoded stand-alone that is the message's own first byte: the property holds. *)
Theorem C28_opcode_stand_alone : forall rt b o ops, open_object (p_LocationProtocol rt) b = Ok o ->
  Forall (fun ob =>
    ob_result ob = (if String.eqb (ob_name ob) "opcode" then Ok (resolve_enum LocationProtocol_LpGeneralTypes (ubits b 0 8)) else Err (AttributeError (ob_name ob))) /\
    (forall v, ob_result ob = Ok v -> ob_after ob = ob_before ob))
  (history rt (LocationProtocol_property rt) ops o).
Proof.
  intros rt b o ops H. destruct (open_dec _ _ _ _ (d_lp rt) H) as [cls [e [F B]]].
  destruct b as [|x t]; [vm_compute in F; discriminate|].
  destruct (lp_inv (x :: t) 0 _ _ ltac:(pose proof (blen_nonneg (x :: t)); lia) F) as [d [Hd E]].
  assert (Ea : l_attrs o = _) by (injection E; intros X _; exact X).
  change (ubits (x :: t) 0 8) with (ubits (x :: t) (8 * 0) 8). rewrite ubits_byte by lia.
  apply (C28_opcode_history rt o ops x t B). rewrite Ea. destruct Hd as [->|[y ->]]; reflexivity.
Qed.
Print Assumptions C28_opcode_stand_alone.
Example C28_case : exists o, open_object (p_LocationProtocol V010) (B [0xC0; 4; 0; 8; 0; 0; 0; 7; 10; 0; 0; 1]) = Ok o /\
  map ob_result (history V010 (LocationProtocol_property V010) [Get "opcode"; Seek 3; Get "opcode"] o) =
  List.repeat (Ok (VEnum "LocationProtocol.LpGeneralTypes" "triggered_location_reporting_service" 0xC0)) 2.
Proof. eexists. split; [vm_compute; reflexivity|]. vm_compute. reflexivity. Qed.

(** Carried in an HDAP packet, [opcode] shows the HDAP header byte instead, which never is a location
    service: the expectation fails for every such packet. *)
Theorem C28_opcode_embedded_refuted : forall rt b o c ops,
  open_object (p_HyteraDmrApplicationProtocol rt) b = Ok o -> ubits b 1 7 = 8 -> child "data" o = Some c ->
  Forall (fun ob => ob_name ob = "opcode" -> ob_result ob = Ok (VInt (if bit b 0 then 0x88 else 0x08)))
  (history rt (LocationProtocol_property rt) ops c).
Proof.
  intros rt b o c ops H H8 Hc. destruct (open_dec _ _ _ _ (d_hdap rt) H) as [cls [e [F B]]].
  pose proof (blen_nonneg b) as Hb. destruct (hdap_inv b 0 _ _ ltac:(lia) F) as [L1 [L2 [_ [d [P E]]]]].
  assert (Ea : l_attrs o = _) by (injection E; intros X _; exact X). clear E F. unfold child in Hc. rewrite Ea in Hc.
  change (8 * 0 + 1) with 1 in *. rewrite H8 in *. change (select 8 hdap_bodies) with (Some lp_at) in P. cbn [part] in P.
  destruct (lp_at b (0 + 1)) as [[v n]|] eqn:Hlp; [|discriminate]. cbn [rbind fst snd] in P. assert (d = [("data", v)]) as -> by congruence.
  unfold hdap_head in Hc. cbn [app lookup String.eqb Ascii.eqb Bool.eqb] in Hc.
  destruct (lp_inv b (0 + 1) v n ltac:(lia) Hlp) as [d' [Hd ->]]. 
  destruct b as [|x t]; [unfold blen in L1; cbn in L1; lia|].
  match type of Hc with Some ?y = _ => assert (y = c) as <- by congruence end. clear Hc.
  match goal with |- context [history _ _ _ ?oc] => pose proof (C28_opcode_history rt oc ops x t B) as Hh end.
  assert (Hh' : forallb (fun nv => negb (is_memo (fst nv))) ([("opcode_header", resolve_enum LocationProtocol_LpSpecificTypes (ubits (x :: t) (8 * (0 + 1)) 16)); ("message_length", VInt (ubits (x :: t) (8 * (0 + 1) + 16) 16))] ++ d') = true) by (destruct Hd as [->|[y ->]]; reflexivity).
  specialize (Hh Hh'). eapply Forall_impl; [|exact Hh]. intros ob [R _] N. rewrite R, N. change (String.eqb "opcode" "opcode") with true. cbn iota. f_equal.
  assert (X : bz x = ubits (x :: t) 0 1 * 2 ^ 7 + ubits (x :: t) 1 7).
  { change (ubits (x :: t) 1 7) with (ubits (x :: t) (0 + 1) 7). rewrite <- ubits_app by lia. change (0) with (8 * 0). rewrite ubits_byte by lia. reflexivity. }
  rewrite H8, ubits_1 in X. rewrite X. destruct (bit (x :: t) 0); reflexivity.
Qed.
Print Assumptions C28_opcode_embedded_refuted.
Example C28_case_embedded : exists o c, open_object (p_HyteraDmrApplicationProtocol V010) (B [8; 0xC0; 4; 0; 8; 0; 0; 0; 7; 10; 0; 0; 1; 0x55; 3]) = Ok o /\
  child "data" o = Some c /\ fst (LocationProtocol_opcode V010 c) = Ok (VInt 8).
Proof. do 2 eexists. split; [vm_compute; reflexivity|]. split; [vm_compute; reflexivity|]. vm_compute. reflexivity. Qed.

(** * C29 *)
(** Stand-alone: the message's own first two bytes select the body. *)
Theorem C29_telemetry_decoding : forall rt b, from_bytes (p_TelemetryProtocol rt) b = stand_alone tp_intended b.
Proof. intros rt b. rewrite (runs_dec_from_bytes _ _ (d_tp rt)). reflexivity. Qed.
Print Assumptions C29_telemetry_decoding.
Definition tp_classes : list (Z * string) := [
  (0xA001, "StandardStatusRequest"); (0xA081, "StandardStatusReport"); (0xA082, "ExtendedStatusReport"); (0xB001, "RemoteControlRequest"); (0xB081, "RemoteControlAnswer")].
Theorem C29_body_by_opcode : forall rt b v, from_bytes (p_TelemetryProtocol rt) b = Ok v ->
  4 <= blen b /\
  getattr "service_type_opcode" v = Some (resolve_enum TelemetryProtocol_ServiceTypes (ubits b 0 8)) /\
  getattr "specific_service_opcode" v = Some (VInt (ubits b 8 8)) /\
  getattr "message_length" v = Some (VInt (ubits b 16 16)) /\
  match select (ubits b 0 16) tp_classes with
  | Some c => exists a, getattr "data" v = Some (VObj ("TelemetryProtocol." ++ c)%string a)
  | None => getattr "data" v = None
  end.
Proof.
  intros rt b v. rewrite C29_telemetry_decoding. unfold stand_alone, tp_intended, tp_selected_at, L_TelemetryProtocol. change (8 * 0) with 0. change (0 + 4) with 4. spec_cbn.
  destruct (fits b 0 8); [|discriminate]. destruct (fits b 0 16); [|discriminate]. destruct (fits b 0 32) eqn:Hf; [|discriminate]. cbn [rmap rbind]. apply fits_iff in Hf.
  set (op := ubits b 0 16). clearbody op. intros H. split; [lia|].
  assert (P : match select op tp_bodies with
    | Some f => exists r, f b 4 = Ok r /\ v = VObj "TelemetryProtocol" [("service_type_opcode", resolve_enum TelemetryProtocol_ServiceTypes (ubits b 0 8)); ("specific_service_opcode", VInt (ubits b 8 8)); ("message_length", VInt (ubits b 16 16));
        ("_m_specific_service", resolve_enum TelemetryProtocol_ServiceSpecificTypes op); ("data", fst r)]
    | None => v = VObj "TelemetryProtocol" [("service_type_opcode", resolve_enum TelemetryProtocol_ServiceTypes (ubits b 0 8)); ("specific_service_opcode", VInt (ubits b 8 8)); ("message_length", VInt (ubits b 16 16));
        ("_m_specific_service", resolve_enum TelemetryProtocol_ServiceSpecificTypes op)] end).
  { destruct (select op tp_bodies) as [f|]; cbn [part] in H.
    - destruct (f b 4) as [r|]; [|discriminate]. exists r. split; [reflexivity|]. cbn [rbind rmap fst snd app] in H. congruence.
    - cbn [rbind rmap fst snd app] in H. congruence. }
  clear H. unfold tp_bodies in P. unfold tp_classes. cbn [select] in P |- *.
  repeat match goal with |- context [op =? ?c] => destruct (op =? c);
    [destruct P as [r [Hr ->]]; repeat (split; [reflexivity|]); unfold extended_status_report, table in Hr;
     repeat match type of Hr with rbind ?x _ = _ => destruct x as [?a|]; [|discriminate]; cbn [rbind] in Hr end;
     eexists; assert (Er : r = (VObj _ _, _)) by (symmetry; injection Hr; intro; eassumption); rewrite Er; reflexivity|] end.
  subst v. repeat (split; [reflexivity|]). reflexivity.
Qed.
Print Assumptions C29_body_by_opcode.
Example C29_case : exists v d, from_bytes (p_TelemetryProtocol V010) (B [0xA0; 1; 0; 11; 10; 0; 0; 1; 10; 0; 0; 2; 0; 1; 0xff]) = Ok v /\
  getattr "data" v = Some d /\ getattr "target_ip" d <> None.
Proof. do 2 eexists. split; [vm_compute; reflexivity|]. split; [vm_compute; reflexivity|]. vm_compute. discriminate. Qed.
(** Inside HDAP the first two bytes of the *packet* select: a telemetry message never has its body
    (the HDAP header byte is 0x12 or 0x92), and checksum and footer are taken from right behind its
    4-byte header. *)
Lemma tp_foreign b k j : 0 <= k -> ubits b (8 * j) 8 <> 0xA0 -> ubits b (8 * j) 8 <> 0xB0 -> 0 <= j -> 
  tp_selected_at j b k = if blen b <? k + 4 then Err EOFError else
    Ok (VObj "TelemetryProtocol" [("service_type_opcode", resolve_enum TelemetryProtocol_ServiceTypes (ubits b (8 * k) 8)); ("specific_service_opcode", VInt (ubits b (8 * k + 8) 8));
      ("message_length", VInt (ubits b (8 * k + 16) 16)); ("_m_specific_service", resolve_enum TelemetryProtocol_ServiceSpecificTypes (ubits b (8 * j) 16))], k + 4).
Proof.
  intros Hk N1 N2 Hj. unfold tp_selected_at.
  assert (Hs : select (ubits b (8 * j) 16) tp_bodies = None).
  { change 16 with (8 + 8). rewrite ubits_app by lia. pose proof (ubits_bound b (8 * j + 8) 8 ltac:(lia)) as Hl. change (2 ^ 8) with 256 in *.
    set (x := ubits b (8 * j) 8) in *. set (y := ubits b (8 * j + 8) 8) in *. clearbody x y. unfold tp_bodies. cbn [select].
    rewrite !(proj2 (Z.eqb_neq _ _)) by lia. reflexivity. }
  rewrite Hs. cbn [part]. destruct (Z.ltb_spec (blen b) (k + 4)) as [L|L].
  - unfold L_TelemetryProtocol. pose proof (blen_nonneg b). destruct (Z_le_gt_dec k (blen b)).
    + rewrite short_table; [reflexivity|eoftable|reflexivity|lia|cbn; lia].
    + spec_cbn. rewrite (proj2 (fits_niff b k 8)) by lia. reflexivity.
  - unfold L_TelemetryProtocol. plain_fields. cbn [rbind fst snd app]. rewrite Z.add_0_r. reflexivity.
Qed.
Theorem C29_telemetry_embedded_refuted : forall rt b, ubits b 1 7 = 0x12 ->
  from_bytes (p_HyteraDmrApplicationProtocol rt) b =
    if blen b <? 7 then Err EOFError
    else if ubits b 48 8 =? 3 then
      Ok (VObj "HyteraDmrApplicationProtocol" [("is_reliable_message", VBool (bit b 0));
        ("message_header", resolve_enum HyteraDmrApplicationProtocol_MessageHeaderTypes 0x12);
        ("data", VObj "TelemetryProtocol" [("service_type_opcode", resolve_enum TelemetryProtocol_ServiceTypes (ubits b 8 8));
           ("specific_service_opcode", VInt (ubits b 16 8)); ("message_length", VInt (ubits b 24 16)); ("_m_specific_service", VInt (ubits b 0 16))]);
        ("checksum", VInt (ubits b 40 8)); ("message_footer", VBytes (B [3]))])
    else Err (ValidationNotEqualError (VBytes (B [3])) (VBytes (slice b 6 1)) "/seq/4").
Proof.
  intros rt b H. rewrite (runs_dec_from_bytes _ _ (d_hdap rt)). unfold stand_alone. pose proof (blen_nonneg b) as Hb. rewrite hdap_explicit by lia.
  change (8 * 0 + 1) with 1. unfold hdap_head. change (8 * 0 + 1) with 1. change (8 * 0) with 0. rewrite H. change (select 0x12 hdap_bodies) with (Some tp_at). cbn [part]. unfold tp_at.
  assert (X : ubits b 0 8 = ubits b 0 1 * 128 + 0x12).
  { rewrite <- H. change 128 with (2 ^ 7). change 1 with (0 + 1) at 2. rewrite <- ubits_app by lia. reflexivity. }
  assert (N : ubits b 0 8 <> 0xA0 /\ ubits b 0 8 <> 0xB0) by (pose proof (ubits_bound b 0 1 ltac:(lia)); lia).
  rewrite tp_foreign by (change (8 * 0) with 0; lia). norm_lits.
  assert (Y : resolve_enum TelemetryProtocol_ServiceSpecificTypes (ubits b 0 16) = VInt (ubits b 0 16)).
  { change 16 with (8 + 8). rewrite ubits_app by lia. pose proof (ubits_bound b (0 + 8) 8 ltac:(lia)) as Hl. change (2 ^ 8) with 256 in *.
    set (x := ubits b 0 8) in *. set (y := ubits b (0 + 8) 8) in *. clearbody x y. unfold resolve_enum, TelemetryProtocol_ServiceSpecificTypes. cbn [en_members en_find].
    rewrite !(proj2 (Z.eqb_neq _ _)) by lia. reflexivity. }
  rewrite Y.
  destruct (Z.ltb_spec (blen b) 1); destruct (Z.ltb_spec (blen b) 7); try lia; try reflexivity; destruct (Z.ltb_spec (blen b) 5); try lia; try reflexivity; cbn [rbind fst snd]; norm_lits.
  - destruct (Z.ltb_spec (blen b) 7); [reflexivity|lia].
  - destruct (Z.ltb_spec (blen b) 7); [lia|]. destruct (_ =? 3); reflexivity.
Qed.
Print Assumptions C29_telemetry_embedded_refuted.
(** the same message, alone (body decoded) and in HDAP (rejected) or with bytes that only look like its trailer (no body) *)
Example C29_case_embedded :
  let m := B [0xA0; 1; 0; 11; 10; 0; 0; 1; 10; 0; 0; 2; 0; 1; 0xff] in
  (exists v d, from_bytes (p_TelemetryProtocol V010) m = Ok v /\ getattr "data" v = Some d) /\
  (exists x, from_bytes (p_HyteraDmrApplicationProtocol V010) (B [0x12] ++ m ++ B [0x55; 3]) = Err (ValidationNotEqualError (VBytes (B [3])) x "/seq/4")).
Proof. split; [do 2 eexists; split; vm_compute; reflexivity|]. eexists. vm_compute. reflexivity. Qed.

(** * C30 *)
(** the little-endian number of two bytes *)
Definition le16 (b : bytes) (p : Z) : Z := ubits b (8 * p) 8 + 256 * ubits b (8 * p + 8) 8.
(** the object of a body that needs the packet to have [n] bytes *)
Definition rcp_object (b : bytes) (n : Z) (cls : string) (a : attrs) : res pyval :=
  if blen b <? n then Err EOFError else Ok (VObj ("RadioControlProtocol." ++ cls) a).
(** the body of a message: it starts at byte 4 *)
Definition rcp_body (b : bytes) (service message_length : Z) : res pyval :=
  let result := [("result", resolve_enum RadioControlProtocol_ReplyResults (ubits b 32 8))] in
  if service =? 0x0841 then rcp_object b 9 "CallRequest" [("call_type", resolve_enum RadioControlProtocol_CallTypes (ubits b 32 8)); ("target_id", VInt (le16 b 5 + 65536 * le16 b 7))]
  else if service =? 0x8841 then rcp_object b 5 "CallReply" result
  else if service =? 0x0842 then rcp_object b 4 "RemoveRadioRequest" []
  else if service =? 0x8842 then rcp_object b 5 "RemoveRadioReply" result
  else if service =? 0x80C9 then rcp_object b 5 "BroadcastStatusConfigurationReply" result
  else if service =? 0x10C9 then
    if blen b <? 5 then Err EOFError
    else let n := ubits b 32 8 in
      rcp_object b (5 + 2 * n) "BroadcastStatusConfigurationRequest" [("num_broadcast_configuration", VInt n);
        ("broadcast_configuration", VList (map (fun i => VObj "RadioControlProtocol.BroadcastConfiguration"
           [("config_operation", VInt (ubits b (40 + 16 * Z.of_nat i) 8)); ("config_target", VInt (ubits b (48 + 16 * Z.of_nat i) 8))]) (List.seq 0 (Z.to_nat n))))]
  else if service =? 0x82D4 then
    let* h := if 6 <=? message_length then if blen b <? 10 then Err EOFError else Ok [("header", VBytes (slice b 4 6))] else Ok [] in
    let* t := if 198 <=? message_length then
                if blen b <? 202 then Err EOFError
                else match decode_text UTF16BE (slice b 10 192) with Some s => Ok [("text", VStr s)] | None => Err (UnicodeDecodeError (enc_name UTF16BE)) end
              else Ok [] in
    let* f := if 206 <=? message_length then if blen b <? 210 then Err EOFError else Ok [("footer", VBytes (slice b 202 8))] else Ok [] in
    Ok (VObj "RadioControlProtocol.RadioIdentificationReply" (h ++ t ++ f))
  else rcp_object b (4 + message_length) "GenericData" [("data", VBytes (slice b 4 message_length))].
Lemma le16_slice b p : 0 <= p -> p + 2 <= blen b -> le_num (slice b p 2) = le16 b p.
Proof.
  intros Hp Hl. unfold le16. replace (8 * p + 8) with (8 * (p + 1)) by lia. rewrite !ubits_byte by lia.
  Transparent slice. unfold slice. Opaque slice. replace (Z.to_nat (p + 1)) with (S (Z.to_nat p)) by lia.
  assert (E : (S (S (Z.to_nat p)) <= List.length b)%nat) by (unfold blen in Hl; lia). change (Z.to_nat 2) with 2%nat. revert E. generalize (Z.to_nat p) as i. clear. intros i. revert b.
  induction i as [|i IH]; intros [|x [|y b]] E; cbn in E; try lia.
  - cbn [firstn skipn nth le_num fold_right]. lia.
  - apply (IH (y :: b)). cbn. lia.
Qed.
Lemma le32_slice b p : 0 <= p -> p + 4 <= blen b -> le_num (slice b p 4) = le16 b p + 65536 * le16 b (p + 2).
Proof.
  intros Hp Hl. unfold le16. replace (8 * p + 8) with (8 * (p + 1)) by lia. replace (8 * (p + 2) + 8) with (8 * (p + 3)) by lia. rewrite !ubits_byte by lia.
  Transparent slice. unfold slice. Opaque slice. replace (Z.to_nat (p + 1)) with (S (Z.to_nat p)) by lia. replace (Z.to_nat (p + 2)) with (S (S (Z.to_nat p))) by lia. replace (Z.to_nat (p + 3)) with (S (S (S (Z.to_nat p)))) by lia.
  assert (E : (S (S (S (S (Z.to_nat p)))) <= List.length b)%nat) by (unfold blen in Hl; lia). change (Z.to_nat 4) with 4%nat. revert E. generalize (Z.to_nat p) as i. clear. intros i. revert b.
  induction i as [|i IH]; intros [|x b] E; cbn in E; try lia.
  - destruct b as [|y [|z [|w b]]]; cbn in E; try lia. cbn [firstn skipn nth le_num fold_right]. lia.
  - apply (IH b). lia.
Qed.
Theorem C30_radio_control : forall rt b,
  from_bytes (p_RadioControlProtocol rt) b =
    if blen b <? 4 then Err EOFError
    else let* d := rcp_body b (le16 b 0) (le16 b 2) in
      Ok (VObj "RadioControlProtocol" [("service_type", resolve_enum RadioControlProtocol_ServiceTypes (le16 b 0)); ("message_length", VInt (le16 b 2)); ("data", d)]).
Proof.
  intros rt b. rewrite (runs_dec_from_bytes _ _ (d_rcp rt)). unfold stand_alone, rcp_at, L_RadioControlProtocol. pose proof (blen_nonneg b) as Hb.
  destruct (Z.ltb_spec (blen b) 4) as [L|L].
  { rewrite short_table; [reflexivity|eoftable|reflexivity|lia|cbn; lia]. }
  long_fields. rewrite !le16_slice by lia.
  assert (M : 0 <= le16 b 2 < 65536).
  { unfold le16. pose proof (ubits_bound b (8 * 2) 8 ltac:(lia)). pose proof (ubits_bound b (8 * 2 + 8) 8 ltac:(lia)). change (2 ^ 8) with 256 in *. lia. }
  set (sv := le16 b 0). set (ml := le16 b 2) in *. clearbody sv ml. unfold rcp_body. cbv zeta.
  assert (D : forall (f : decoder) (r : res pyval), rmap fst (f b 4) = r ->
    rmap fst (let* d := part "data" (Some f) b 4 in Ok (VObj "RadioControlProtocol" ([("service_type", resolve_enum RadioControlProtocol_ServiceTypes sv); ("message_length", VInt ml)] ++ fst d), snd d)) =
    let* d := r in Ok (VObj "RadioControlProtocol" [("service_type", resolve_enum RadioControlProtocol_ServiceTypes sv); ("message_length", VInt ml); ("data", d)])).
  { intros f r <-. cbn [part]. destruct (f b 4) as [x|]; reflexivity. }
  apply D. clear D. unfold rcp_object.
  destruct (Z.eqb_spec sv 0x0841) as [->|N1]; [|destruct (Z.eqb_spec sv 0x8841) as [->|N2]; [|destruct (Z.eqb_spec sv 0x0842) as [->|N3]; [|destruct (Z.eqb_spec sv 0x8842) as [->|N4];
    [|destruct (Z.eqb_spec sv 0x80C9) as [->|N5]; [|destruct (Z.eqb_spec sv 0x10C9) as [->|N6]; [|destruct (Z.eqb_spec sv 0x82D4) as [->|N7]]]]]]].
  8: { unfold rcp_bodies. cbn [select]. rewrite !(proj2 (Z.eqb_neq _ _)) by assumption. unfold rcp_generic, bytes_at. destruct (Z.ltb_spec ml 0); [lia|].
       destruct (Z.leb_spec (4 + ml) (blen b)); destruct (Z.ltb_spec (blen b) (4 + ml)); try lia; reflexivity. }
  all: unfold rcp_bodies; cbn [select Z.eqb Pos.eqb].
  6: { unfold rcp_broadcast_request. norm_lits. destruct (blen b <? 5); [reflexivity|]. destruct (blen b <? _); [reflexivity|]. cbn [rmap fst]. do 6 f_equal.
       apply map_ext. intros i. replace (8 * (5 + 2 * Z.of_nat i)) with (40 + 16 * Z.of_nat i) by lia. replace (8 * (6 + 2 * Z.of_nat i)) with (48 + 16 * Z.of_nat i) by lia. reflexivity. }
  6: { unfold table, L_rcp_identification. pose proof I as Hx.
       destruct (Z.leb_spec 6 ml); destruct (Z.leb_spec 198 ml); destruct (Z.leb_spec 206 ml); try lia; cbn [app]; spec_cbn.
       all: repeat match goal with |- context [fits ?b ?k ?c] => let n := eval vm_compute in (k + c / 8) in
          destruct (Z.ltb_spec (blen b) n); [rewrite (proj2 (fits_niff b k c)) by lia; reflexivity|rewrite (proj2 (fits_iff b k c)) by lia] end.
       all: try (destruct (decode_text _ _); [|reflexivity]); cbn [rbind rmap]. 
       all: repeat match goal with |- context [fits ?b ?k ?c] => let n := eval vm_compute in (k + c / 8) in
          destruct (Z.ltb_spec (blen b) n); [rewrite (proj2 (fits_niff b k c)) by lia; reflexivity|rewrite (proj2 (fits_iff b k c)) by lia] end.
       all: reflexivity. }
  all: unfold table, L_RadioControlProtocol_CallRequest, L_RadioControlProtocol_CallReply, L_RadioControlProtocol_RemoveRadioRequest, L_RadioControlProtocol_RemoveRadioReply, L_RadioControlProtocol_BroadcastStatusConfigurationReply.
  all: match goal with |- context [blen ?b <? ?n] => destruct (Z.ltb_spec (blen b) n) end.
  all: try lia.
  1,3,6,8: rewrite short_table; [reflexivity|eoftable|reflexivity|lia|cbn; lia].
  all: long_fields; rewrite ?le32_slice by lia; reflexivity.
Qed.
Print Assumptions C30_radio_control.

(** * C31 *)
Lemma embed f b k : shifts f -> 0 <= k <= blen b -> f b k = rmap (fun r => (fst r, k + snd r)) (f (rest b k) 0).
Proof.
  intros Hs Hk. assert (E : b = firstn (Z.to_nat k) b ++ rest b k) by (unfold rest; symmetry; apply firstn_skipn).
  assert (L : blen (firstn (Z.to_nat k) b) = k) by (unfold blen in *; rewrite firstn_length; lia).
  assert (X : f b k = f (firstn (Z.to_nat k) b ++ rest b k) (blen (firstn (Z.to_nat k) b) + 0)) by (rewrite L, Z.add_0_r, <- E; reflexivity).
  rewrite X, Hs by lia. unfold shifted. rewrite L. reflexivity.
Qed.
(** the protocol carried under each HDAP message header *)
Definition sub_protocols (rt : runtime) : list (Z * M pyval) := [
  (0x02, p_RadioControlProtocol rt); (0x08, p_LocationProtocol rt); (0x09, p_TextMessageProtocol rt); (0x11, p_RadioRegistrationService rt);
  (0x12, p_TelemetryProtocol rt); (0x13, p_DataTransmitProtocol rt); (0x14, p_DataDeliveryStates rt)].
Lemma sub_protocol rt h p : h <> 0x12 -> select h (sub_protocols rt) = Some p -> exists f, select h hdap_bodies = Some f /\ runs_dec p f /\ shifts f.
Proof.
  intros N. unfold sub_protocols, hdap_bodies. cbn [select].
  destruct (h =? 0x02); [intros [= <-]; eexists; split; [reflexivity|]; split; [apply d_rcp|apply shifts_rcp]|].
  destruct (h =? 0x08); [intros [= <-]; eexists; split; [reflexivity|]; split; [apply d_lp|apply shifts_lp]|].
  destruct (h =? 0x09); [intros [= <-]; eexists; split; [reflexivity|]; split; [apply d_tmp|apply shifts_tmp]|].
  destruct (h =? 0x11); [intros [= <-]; eexists; split; [reflexivity|]; split; [apply d_rrs|apply shifts_rrs]|].
  rewrite (proj2 (Z.eqb_neq h 0x12)) by assumption.
  destruct (h =? 0x13); [intros [= <-]; eexists; split; [reflexivity|]; split; [apply d_dtp|apply shifts_dtp]|].
  destruct (h =? 0x14); [intros [= <-]; eexists; split; [reflexivity|]; split; [apply d_dds|apply shifts_dds]|]. discriminate.
Qed.

(** A protocol other than telemetry decodes inside HDAP as it does alone. *)
Theorem C31_embedded_in_hdap : forall rt b p, 1 <= blen b -> ubits b 1 7 <> 0x12 -> select (ubits b 1 7) (sub_protocols rt) = Some p ->
  match from_bytes p (rest b 1) with
  | Err e => from_bytes (p_HyteraDmrApplicationProtocol rt) b = Err e
  | Ok d => match from_bytes (p_HyteraDmrApplicationProtocol rt) b with
            | Ok v => getattr "data" v = Some d
            | Err e => e = EOFError \/ exists x, e = ValidationNotEqualError (VBytes (B [3])) x "/seq/4"
            end
  end.
Proof.
  intros rt b p Hl N Hp. destruct (sub_protocol rt _ p N Hp) as [f [Hf [Hr Hs]]]. rewrite (runs_dec_from_bytes _ _ Hr), (runs_dec_from_bytes _ _ (d_hdap rt)).
  unfold stand_alone at 1. unfold stand_alone. rewrite hdap_explicit by lia. change (8 * 0 + 1) with 1. rewrite Hf. destruct (Z.ltb_spec (blen b) (0 + 1)); [lia|].
  cbn [part]. rewrite (embed f b (0 + 1)) by (assumption || lia). change (0 + 1) with 1. destruct (f (rest b 1) 0) as [[d n]|e]; cbn [rmap rbind fst snd]; [|reflexivity].
  destruct (_ <? _); [left; reflexivity|]. destruct (_ =? 3); [reflexivity|]. right. eexists. reflexivity.
Qed.
Print Assumptions C31_embedded_in_hdap.

(** An HDAP message that is not telemetry decodes inside HRNP as it does alone. *)
Definition hrnp_head (b : bytes) : attrs := [("header_identifier", VBytes (B [0x7e])); ("version", VInt (ubits b 8 8)); ("block", VInt (ubits b 16 8));
  ("opcode", resolve_enum HyteraRadioNetworkProtocol_Opcodes (ubits b 24 8)); ("source_id", VInt (ubits b 32 8)); ("destination_id", VInt (ubits b 40 8));
  ("packet_number", VInt (ubits b 48 16)); ("hrnp_packet_length", VInt (ubits b 64 16)); ("checksum", VInt (ubits b 80 16))].
Lemma hrnp_explicit rt b : from_bytes (p_HyteraRadioNetworkProtocol rt) b =
  if blen b <? 1 then Err EOFError
  else if negb (ubits b 0 8 =? 0x7e) then Err (ValidationNotEqualError (VBytes (B [0x7e])) (VBytes (slice b 0 1)) "/seq/0")
  else if blen b <? 12 then Err EOFError
  else let* d := part "data" (if ubits b 24 8 =? 0 then Some hdap_at else None) b 12 in Ok (VObj "HyteraRadioNetworkProtocol" (hrnp_head b ++ fst d)).
Proof.
  rewrite (runs_dec_from_bytes _ _ (d_hrnp rt)). unfold stand_alone, hrnp_at, L_HyteraRadioNetworkProtocol. pose proof (blen_nonneg b) as Hb.
  destruct (Z.ltb_spec (blen b) 1) as [L1|L1].
  { spec_cbn. change (blen (B [126])) with 1. norm_lits. rewrite (proj2 (fits_niff b 0 8)) by lia. reflexivity. }
  assert (D : forall fs, fields b 0 (F "header_identifier" 0 (KMagic (B [0x7e]) "/seq/0") :: fs) =
     if ubits b 0 8 =? 0x7e then let* a := fields b 0 fs in Ok (("header_identifier", VBytes (B [0x7e])) :: a)
     else Err (ValidationNotEqualError (VBytes (B [0x7e])) (VBytes (slice b 0 1)) "/seq/0")).
  { intros fs. spec_cbn. change (blen (B [126])) with 1. norm_lits. rewrite (proj2 (fits_iff b 0 8)) by lia. cbv zeta. rewrite magic_one by lia. change (8 * 0) with 0. destruct (_ =? _); reflexivity. }
  rewrite D. clear D. destruct (ubits b 0 8 =? 0x7e); cbn [negb]; [|reflexivity].
  destruct (Z.ltb_spec (blen b) 12) as [L|L].
  - match goal with |- context [fields ?b 0 ?fs] =>
      let n := eval vm_compute in (fs_end fs 8) in
      let H := fresh in assert (H : match fields b 0 fs with Ok _ => fits b 0 n = true | Err e => e = EOFError /\ fits b 0 n = false end);
      [change n with (fs_end fs 8); apply fields_eof_only; [eoftable|reflexivity|reflexivity|lia|apply fits_iff; lia]
      |destruct (fields b 0 fs); [apply fits_iff in H; lia|destruct H as [-> _]; reflexivity]] end.
  - long_fields. destruct (part _ _ b 12) as [[d n]|]; reflexivity.
Qed.
Theorem C31_hdap_embedded_in_hrnp : forall rt b, 13 <= blen b -> ubits b 0 8 = 0x7e -> ubits b 24 8 = 0 -> ubits b 97 7 <> 0x12 ->
  from_bytes (p_HyteraRadioNetworkProtocol rt) b =
    rmap (fun d => VObj "HyteraRadioNetworkProtocol" (hrnp_head b ++ [("data", d)])) (from_bytes (p_HyteraDmrApplicationProtocol rt) (rest b 12)).
Proof.
  intros rt b Hl H0 H24 N. rewrite hrnp_explicit, H0, H24. destruct (Z.ltb_spec (blen b) 1); [lia|]. destruct (Z.ltb_spec (blen b) 12); [lia|]. cbn [Z.eqb Pos.eqb negb part].
  rewrite (runs_dec_from_bytes _ _ (d_hdap rt)). unfold stand_alone.
  assert (E : b = firstn 12 b ++ rest b 12) by (unfold rest; symmetry; apply firstn_skipn).
  assert (L : blen (firstn 12 b) = 12) by (unfold blen in *; rewrite firstn_length; lia).
  assert (X : hdap_at b 12 = hdap_at (firstn 12 b ++ rest b 12) (blen (firstn 12 b) + 0)) by (rewrite L, <- E; reflexivity).
  rewrite X, hdap_shift.
  - destruct (hdap_at (rest b 12) 0) as [[v e]|]; reflexivity.
  - pose proof (blen_nonneg (rest b 12)). lia.
  - intros Y. apply N. rewrite <- Y. pose proof (ubits_shift (firstn 12 b) (rest b 12) (8 * 0 + 1) 7 ltac:(lia)) as Z. rewrite L, <- E in Z. exact Z.
Qed.
Print Assumptions C31_hdap_embedded_in_hrnp.
Example C31_case : let m := B [0; 0x80; 0; 9; 10; 0; 0; 1; 0; 0; 0; 0; 60] in
  exists d v w, from_bytes (p_RadioRegistrationService V010) m = Ok d /\
  from_bytes (p_HyteraDmrApplicationProtocol V010) (B [0x11] ++ m ++ B [0x55; 3]) = Ok v /\ getattr "data" v = Some d /\
  from_bytes (p_HyteraRadioNetworkProtocol V010) (B [0x7e; 4; 0; 0; 0x20; 0x10; 0; 1; 0; 28; 0; 0; 0x11] ++ m ++ B [0x55; 3]) = Ok w /\ getattr "data" w = Some v.
Proof. do 3 eexists. split; [vm_compute; reflexivity|]. split; [vm_compute; reflexivity|]. split; [vm_compute; reflexivity|]. split; vm_compute; reflexivity. Qed.

(** [hdap_run rt b k l]: from byte [k] on, the packet is divided into HDAP messages without gap up to its
    end, and every message that is not telemetry decodes, from its own bytes alone, to its place in [l]. *)
Inductive hdap_run (rt : runtime) (b : bytes) : Z -> list pyval -> Prop :=
| run_end : hdap_run rt b (blen b) []
| run_message k k' m l : 0 <= k -> k + 3 <= k' <= blen b ->
    (ubits b (8 * k + 1) 7 <> 0x12 -> from_bytes (p_HyteraDmrApplicationProtocol rt) (slice b k (k' - k)) = Ok m) ->
    hdap_run rt b k' l -> hdap_run rt b k (m :: l).
Lemma slice_rest b k n : slice b k n = firstn (Z.to_nat n) (rest b k).
Proof. Transparent slice. reflexivity. Opaque slice. Qed.
Lemma hdap_own_bytes rt b k m e : 0 <= k <= blen b -> ubits b (8 * k + 1) 7 <> 0x12 -> hdap_at b k = Ok (m, e) ->
  from_bytes (p_HyteraDmrApplicationProtocol rt) (slice b k (e - k)) = Ok m.
Proof.
  intros Hk N H. rewrite (runs_dec_from_bytes _ _ (d_hdap rt)). unfold stand_alone.
  assert (E : b = firstn (Z.to_nat k) b ++ rest b k) by (unfold rest; symmetry; apply firstn_skipn).
  assert (L : blen (firstn (Z.to_nat k) b) = k) by (unfold blen in *; rewrite firstn_length; lia).
  assert (LR : blen (rest b k) = blen b - k) by (apply (f_equal blen) in E; rewrite blen_app, L in E; lia).
  assert (X : hdap_at b k = hdap_at (firstn (Z.to_nat k) b ++ rest b k) (blen (firstn (Z.to_nat k) b) + 0)) by (rewrite L, Z.add_0_r, <- E; reflexivity).
  rewrite X, hdap_shift in H.
  2: lia.
  2: { intros Y. apply N. rewrite <- Y. pose proof (ubits_shift (firstn (Z.to_nat k) b) (rest b k) (8 * 0 + 1) 7 ltac:(lia)) as Z. rewrite L, <- E in Z. exact Z. }
  destruct (hdap_at (rest b k) 0) as [[v n]|] eqn:Hr; [|discriminate]. unfold shifted in H. cbn [rmap fst snd] in H. rewrite L in H.
  assert (v = m) as -> by congruence. assert (e = k + n) as -> by congruence. replace (k + n - k) with n by lia.
  destruct (local_hdap (rest b k) 0 m n ltac:(lia) Hr) as [G1 G2]. rewrite G2 with (b' := slice b k n); [reflexivity|].
  rewrite slice_rest. exists (firstn (Z.to_nat n) (rest b k)), (skipn (Z.to_nat n) (rest b k)), []. rewrite firstn_skipn, app_nil_r. split; [reflexivity|]. split; [reflexivity|].
  unfold blen in *. rewrite firstn_length. lia.
Qed.
Lemma messages_run rt b k l : 0 <= k <= blen b -> messages b k (Ok l) -> hdap_run rt b k l.
Proof.
  intros Hk H. remember (Ok l) as r eqn:Er. revert l Er Hk. induction H as [k Hk'|k m e r Hk' Hm Hr IH|k x Hk' Hm]; intros l Er Hk.
  - assert (l = []) as -> by congruence. subst k. constructor.
  - destruct r as [l'|]; [|discriminate]. assert (l = m :: l') as -> by (cbn in Er; congruence).
    destruct (hdap_inv b k m e Hk Hm) as [_ [L _]]. apply (run_message rt b k e m l'); [lia|lia| |].
    + intros N. apply hdap_own_bytes; assumption.
    + apply IH; [reflexivity|lia].
  - discriminate.
Qed.

(** [option_run b k l e]: the options from byte [k] to byte [e] *)
Definition hstrp_option (b : bytes) (k : Z) : pyval := VObj "HyteraSimpleTransportReliabilityProtocol.Option" [
  ("expect_more_options", VBool (bit b (8 * k))); ("command", resolve_enum HyteraSimpleTransportReliabilityProtocol_OptionCommands (ubits b (8 * k + 1) 7));
  ("len_option_payload", VInt (ubits b (8 * k + 8) 8)); ("option_payload", VBytes (slice b (k + 2) (ubits b (8 * k + 8) 8)))].
Inductive option_run (b : bytes) : Z -> list pyval -> Z -> Prop :=
| option_run_last k e : e = k + 2 + ubits b (8 * k + 8) 8 -> e <= blen b -> bit b (8 * k) = false -> option_run b k [hstrp_option b k] e
| option_run_more k k' l e : k' = k + 2 + ubits b (8 * k + 8) 8 -> k' <= blen b -> bit b (8 * k) = true -> option_run b k' l e -> option_run b k (hstrp_option b k :: l) e.
Lemma option_at_inv b k o e : option_at b k = Ok (o, e) -> o = hstrp_option b k /\ e = k + 2 + ubits b (8 * k + 8) 8 /\ e <= blen b.
Proof.
  unfold option_at, L_hstrp_option, hstrp_option. cbv zeta. cbn [fields decode f_off f_kind f_name kwidth nwidth num]. norm_lits.
  destruct (fits b k 1); [|discriminate]. destruct (fits b k 8); [|discriminate]. destruct (fits b k 16) eqn:Hf; [|discriminate]. cbn [rbind].
  unfold bytes_at. destruct (_ <? 0); [discriminate|]. destruct (Z.leb_spec (k + 2 + ubits b (8 * k + 8) 8) (blen b)); [|discriminate]. cbn [rbind]. rewrite Z.add_0_r.
  set (n := ubits b (8 * k + 8) 8) in *. intros E. split; [|split; [congruence|]]; [|assert (e = k + 2 + n) by congruence; lia].
  match type of E with Ok (?x, _) = _ => assert (Ex : o = x) by congruence end. rewrite Ex. reflexivity.
Qed.
Lemma options_run b k r : options b k r -> forall l e, r = Ok (l, e) -> option_run b k l e /\ l <> [] /\ k + 2 <= e <= blen b.
Proof.
  induction 1 as [k o e0 Ho Hb|k o e0 r Ho Hb Hr IH|k x Ho]; intros l e E.
  - destruct (option_at_inv _ _ _ _ Ho) as [-> [-> L]]. assert (l = [hstrp_option b k]) as -> by congruence. assert (e = k + 2 + ubits b (8 * k + 8) 8) as -> by congruence.
    pose proof (ubits_bound b (8 * k + 8) 8 ltac:(lia)).
    split; [constructor; auto|]. split; [discriminate|]. lia.
  - destruct r as [[l' e']|]; [|discriminate]. cbn [rmap fst snd] in E. assert (l = o :: l') as -> by congruence. assert (e' = e) as -> by congruence.
    destruct (IH l' e eq_refl) as [I1 [I2 I3]]. destruct (option_at_inv _ _ _ _ Ho) as [-> [-> L]]. pose proof (ubits_bound b (8 * k + 8) 8 ltac:(lia)).
    split; [|split; [discriminate|lia]]. eapply option_run_more; eauto.
  - discriminate.
Qed.
(** the fixed header *)
Definition hstrp_head (b : bytes) : attrs := [("header", VBytes (blit "2B")); ("version", VInt (ubits b 16 8)); ("reserved", VInt (ubits b 24 2)); ("has_option", VBool (bit b 26));
  ("is_reject", VBool (bit b 27)); ("is_close", VBool (bit b 28)); ("is_connect", VBool (bit b 29)); ("is_heartbeat", VBool (bit b 30)); ("is_ack", VBool (bit b 31));
  ("sequence_number", VInt (ubits b 32 16))].
Lemma hstrp_fields b : fields b 0 L_HyteraSimpleTransportReliabilityProtocol =
  if blen b <? 2 then Err EOFError
  else if negb (bytes_eqb (slice b 0 2) (blit "2B")) then Err (ValidationNotEqualError (VBytes (blit "2B")) (VBytes (slice b 0 2)) "/seq/0")
  else if blen b <? 6 then Err EOFError
  else Ok (hstrp_head b).
Proof.
  unfold L_HyteraSimpleTransportReliabilityProtocol. pose proof (blen_nonneg b) as Hb.
  destruct (Z.ltb_spec (blen b) 2) as [L1|L1].
  { spec_cbn. change (blen (blit "2B")) with 2. norm_lits. rewrite (proj2 (fits_niff b 0 16)) by lia. reflexivity. }
  assert (D : forall fs, fields b 0 (F "header" 0 (KMagic (blit "2B") "/seq/0") :: fs) =
     if bytes_eqb (slice b 0 2) (blit "2B") then let* a := fields b 0 fs in Ok (("header", VBytes (blit "2B")) :: a)
     else Err (ValidationNotEqualError (VBytes (blit "2B")) (VBytes (slice b 0 2)) "/seq/0")).
  { intros fs. spec_cbn. change (blen (blit "2B")) with 2. norm_lits. rewrite (proj2 (fits_iff b 0 16)) by lia. cbv zeta. destruct (bytes_eqb _ _); reflexivity. }
  rewrite D. clear D. destruct (bytes_eqb _ _); cbn [negb]; [|reflexivity].
  destruct (Z.ltb_spec (blen b) 6) as [L|L].
  - match goal with |- context [fields ?b 0 ?fs] =>
      let n := eval vm_compute in (fs_end fs 16) in
      let H := fresh in assert (H : match fields b 0 fs with Ok _ => fits b 0 n = true | Err e => e = EOFError /\ fits b 0 n = false end);
      [change n with (fs_end fs 16); apply fields_eof_only; [eoftable|reflexivity|reflexivity|lia|apply fits_iff; lia]
      |destruct (fields b 0 fs); [apply fits_iff in H; lia|destruct H as [-> _]; reflexivity]] end.
  - long_fields. reflexivity.
Qed.
(** What a successful HSTRP parse means, part by part. *)
Lemma hstrp_inv rt b v : from_bytes (p_HyteraSimpleTransportReliabilityProtocol rt) b = Ok v ->
  6 <= blen b /\ slice b 0 2 = blit "2B" /\
  exists k ao ad, 6 <= k <= blen b /\ v = VObj "HyteraSimpleTransportReliabilityProtocol" (hstrp_head b ++ ao ++ ad) /\
  (if (6 <? blen b) && bit b 26 && negb (bit b 30) then exists l, ao = [("options", VList l)] /\ l <> [] /\ option_run b 6 l k else ao = [] /\ k = 6) /\
  (if k <? blen b then
     if bit b 27 || bit b 28 || bit b 29 then ad = [("extra_data", VBytes (rest b k))]
     else exists l, ad = [("data", VList l)] /\ l <> [] /\ hdap_run rt b k l
   else ad = []).
Proof.
  intros H. pose proof (hstrp_meets rt b) as S. rewrite H in S. inversion S as [|h ro rd more has_option control heartbeat Hh Ho Hd E]. subst more has_option control heartbeat.
  rewrite hstrp_fields in Hh. destruct (Z.ltb_spec (blen b) 2); [discriminate|]. destruct (bytes_eqb (slice b 0 2) (blit "2B")) eqn:M; cbn [negb] in Hh; [|discriminate].
  destruct (Z.ltb_spec (blen b) 6); [discriminate|]. assert (h = hstrp_head b) as -> by congruence. apply bytes_eqb_true in M.
  split; [assumption|]. split; [exact M|].
  destruct ro as [[ao k]|]; [|discriminate]. cbn [rbind fst snd] in E. specialize (Hd ao k eq_refl). destruct rd as [ad|]; [|discriminate]. cbn [rbind] in E.
  assert (K : (if (6 <? blen b) && bit b 26 && negb (bit b 30) then exists l, ao = [("options", VList l)] /\ l <> [] /\ option_run b 6 l k else ao = [] /\ k = 6) /\ 6 <= k <= blen b).
  { destruct ((6 <? blen b) && bit b 26 && negb (bit b 30)).
    - destruct Ho as [r [Hr Er]]. destruct r as [[l e]|]; [|discriminate]. cbn [rmap fst snd] in Er. assert (ao = [("options", VList l)]) as -> by congruence. assert (k = e) as -> by congruence.
      destruct (options_run _ _ _ Hr l e eq_refl) as [I1 [I2 I3]]. split; [exists l; auto|lia].
    - assert (ao = []) as -> by congruence. assert (k = 6) as -> by congruence. split; [auto|lia]. }
  destruct K as [K1 K2]. exists k, ao, ad. split; [exact K2|]. split; [congruence|]. split; [exact K1|].
  destruct (Z.ltb_spec k (blen b)) as [L|L]; [|congruence].
  destruct (bit b 27 || bit b 28 || bit b 29); [congruence|]. destruct Hd as [r [Hr Er]]. destruct r as [l|]; [|discriminate]. cbn [rmap] in Er.
  exists l. split; [congruence|]. split; [|apply messages_run; [lia|exact Hr]]. intros ->. inversion Hr as [k0 Hk E0|? ? ? r0 ? ? ? E0|]; [lia|]. destruct r0; discriminate.
Qed.

(** HDAP messages (other than telemetry) inside HSTRP decode as they do alone. *)
Theorem C31_hdap_embedded_in_hstrp : forall rt b v l, from_bytes (p_HyteraSimpleTransportReliabilityProtocol rt) b = Ok v -> getattr "data" v = Some (VList l) ->
  exists k, 6 <= k < blen b /\ hdap_run rt b k l.
Proof.
  intros rt b v l H Hd. destruct (hstrp_inv rt b v H) as [_ [_ [k [ao [ad [Hk [-> [Ho Ha]]]]]]]]. unfold getattr, hstrp_head in Hd. cbn [app lookup String.eqb Ascii.eqb Bool.eqb] in Hd.
  assert (No : lookup "data" ao = None).
  { destruct ((6 <? blen b) && bit b 26 && negb (bit b 30)); [destruct Ho as [lo [-> _]]|destruct Ho as [-> _]]; reflexivity. }
  rewrite lookup_app, No in Hd. destruct (Z.ltb_spec k (blen b)); [|subst; discriminate].
  destruct (bit b 27 || bit b 28 || bit b 29); [subst; discriminate|]. destruct Ha as [l' [-> [_ R]]]. exists k. split; [lia|].
  cbn [lookup String.eqb Ascii.eqb Bool.eqb] in Hd. assert (l = l') as -> by congruence. exact R.
Qed.
Print Assumptions C31_hdap_embedded_in_hstrp.

(** Telemetry is the exception: the same bytes, decoded alone and inside HDAP, give different objects. *)
Theorem C31_telemetry_refuted : exists m d v d', from_bytes (p_TelemetryProtocol V010) m = Ok d /\
  from_bytes (p_HyteraDmrApplicationProtocol V010) (B [0x12] ++ m) = Ok v /\ getattr "data" v = Some d' /\ d <> d'.
Proof.
  exists (B [0xA0; 1; 0; 11; 10; 3; 0; 1; 10; 0; 0; 2; 0; 1; 0xff]). do 3 eexists. split; [vm_compute; reflexivity|]. split; [vm_compute; reflexivity|]. split; [vm_compute; reflexivity|]. discriminate.
Qed.
Print Assumptions C31_telemetry_refuted.

(** * C32 *)
(** the sub-message: an attribute list and the byte after it *)
Theorem C32_hdap_framing : forall rt b,
  from_bytes (p_HyteraDmrApplicationProtocol rt) b =
    if blen b <? 1 then Err EOFError
    else let* d := part "data" (select (ubits b 1 7) hdap_bodies) b 1 in
      if blen b <? snd d + 2 then Err EOFError
      else if ubits b (8 * (snd d + 1)) 8 =? 3
      then Ok (VObj "HyteraDmrApplicationProtocol" ([("is_reliable_message", VBool (bit b 0)); ("message_header", resolve_enum HyteraDmrApplicationProtocol_MessageHeaderTypes (ubits b 1 7))] ++
             fst d ++ [("checksum", VInt (ubits b (8 * snd d) 8)); ("message_footer", VBytes (B [3]))]))
      else Err (ValidationNotEqualError (VBytes (B [3])) (VBytes (slice b (snd d + 1) 1)) "/seq/4").
Proof.
  intros rt b. rewrite (runs_dec_from_bytes _ _ (d_hdap rt)). unfold stand_alone. pose proof (blen_nonneg b). rewrite hdap_explicit by lia. change (8 * 0 + 1) with 1. change (0 + 1) with 1.
  destruct (blen b <? 1); [reflexivity|]. destruct (part _ _ b 1) as [[d n]|]; [|reflexivity]. cbn [rbind fst snd]. destruct (_ <? _); [reflexivity|]. destruct (_ =? 3); reflexivity.
Qed.
Print Assumptions C32_hdap_framing.
(** every accepted packet has 0x03 right after the checksum byte, and nothing after that byte matters *)
Theorem C32_hdap_footer : forall rt b v, from_bytes (p_HyteraDmrApplicationProtocol rt) b = Ok v ->
  exists n, 1 <= n /\ n + 2 <= blen b /\ getattr "checksum" v = Some (VInt (ubits b (8 * n) 8)) /\ ubits b (8 * (n + 1)) 8 = 3 /\
  (forall t, from_bytes (p_HyteraDmrApplicationProtocol rt) (slice b 0 (n + 2) ++ t) = Ok v) /\
  (forall z, 0 <= z < 256 -> z <> 3 -> forall t, exists x, from_bytes (p_HyteraDmrApplicationProtocol rt) (slice b 0 (n + 1) ++ [zb z] ++ t) = Err (ValidationNotEqualError (VBytes (B [3])) (VBytes x) "/seq/4")).
Proof.
  intros rt b v. assert (D : forall b, from_bytes (p_HyteraDmrApplicationProtocol rt) b = stand_alone hdap_at b) by (intros; apply runs_dec_from_bytes, d_hdap).
  rewrite D. unfold stand_alone. destruct (hdap_at b 0) as [[w e]|] eqn:H; [|discriminate]. cbn [rmap fst]. intros E. assert (w = v) as -> by congruence. clear E.
  pose proof (blen_nonneg b) as Hb. destruct (hdap_inv b 0 v e ltac:(lia) H) as [L1 [L2 [M [d [P Ev]]]]]. exists (e - 2). replace (e - 2 + 1) with (e - 1) by lia. replace (e - 2 + 2) with e by lia.
  split; [lia|]. split; [lia|]. split.
  { rewrite Ev. unfold hdap_head. cbn [getattr app]. cbn [lookup String.eqb Ascii.eqb Bool.eqb]. rewrite lookup_app.
    destruct (select _ hdap_bodies) as [f|]; cbn [part] in P.
    - destruct (f b (0 + 1)) as [[x n]|]; [|discriminate]. cbn [rbind fst snd] in P. assert (d = [("data", x)]) as -> by congruence. reflexivity.
    - assert (d = []) as -> by congruence. reflexivity. }
  split; [exact M|]. split.
  - intros t. rewrite D. unfold stand_alone. destruct (local_hdap b 0 v e ltac:(lia) H) as [_ G]. rewrite G; [reflexivity|].
    exists (slice b 0 e), (rest b e), t. split; [|split; [reflexivity|]].
    + Transparent slice. unfold slice, rest. Opaque slice. cbn [Z.to_nat skipn]. symmetry. apply firstn_skipn.
    + rewrite blen_slice by lia. reflexivity.
  - intros z Hz N t. rewrite D. unfold stand_alone. set (b' := slice b 0 (e - 1) ++ [zb z] ++ t).
    assert (A : agree (e - 1) b b').
    { exists (slice b 0 (e - 1)), (rest b (e - 1)), ([zb z] ++ t). split; [|split; [reflexivity|]].
      + Transparent slice. unfold slice, rest. Opaque slice. cbn [Z.to_nat skipn]. symmetry. apply firstn_skipn.
      + rewrite blen_slice by lia. reflexivity. }
    assert (Lb : e <= blen b') by (unfold b'; rewrite !blen_app, blen_slice by lia; pose proof (blen_nonneg t); change (blen [zb z]) with 1; lia).
    rewrite hdap_explicit by lia. destruct (Z.ltb_spec (blen b') (0 + 1)); [lia|].
    rewrite <- (agree_ubits (e - 1) b b') by (assumption || lia).
    destruct (part_local "data" _ b (0 + 1) d (e - 2) ltac:(lia) (select_local _ _ hdap_bodies_local) P) as [_ G].
    rewrite (G b') by (apply (agree_mono (e - 1)); [lia|exact A]). cbn [rbind fst snd]. destruct (Z.ltb_spec (blen b') (e - 2 + 2)); [lia|].
    replace (e - 2 + 1) with (e - 1) by lia.
    assert (U : ubits b' (8 * (e - 1)) 8 = z).
    { rewrite ubits_byte by lia. unfold b'. assert (Ls : List.length (slice b 0 (e - 1)) = Z.to_nat (e - 1)) by (pose proof (blen_slice b 0 (e - 1) ltac:(lia) ltac:(lia) ltac:(lia)) as Q; unfold blen in Q; lia).
      rewrite app_nth2 by lia. rewrite Ls, Nat.sub_diag. cbn [app nth]. apply bz_zb. lia. }
    rewrite U. destruct (Z.eqb_spec z 3); [contradiction|]. eexists. reflexivity.
Qed.
Print Assumptions C32_hdap_footer.
(** an unknown header: no data, the checksum follows immediately *)
Theorem C32_unknown_header : forall rt b, ~ In (ubits b 1 7) [0x02; 0x08; 0x09; 0x11; 0x12; 0x13; 0x14] ->
  from_bytes (p_HyteraDmrApplicationProtocol rt) b =
    if blen b <? 3 then Err EOFError
    else if ubits b 16 8 =? 3
    then Ok (VObj "HyteraDmrApplicationProtocol" [("is_reliable_message", VBool (bit b 0)); ("message_header", resolve_enum HyteraDmrApplicationProtocol_MessageHeaderTypes (ubits b 1 7));
           ("checksum", VInt (ubits b 8 8)); ("message_footer", VBytes (B [3]))])
    else Err (ValidationNotEqualError (VBytes (B [3])) (VBytes (slice b 2 1)) "/seq/4").
Proof.
  intros rt b N. rewrite C32_hdap_framing. assert (E : select (ubits b 1 7) hdap_bodies = None).
  { unfold hdap_bodies. cbn [In] in N. cbn [select]. rewrite !(proj2 (Z.eqb_neq _ _)) by (intros X; apply N; lia). reflexivity. }
  rewrite E. cbn [part rbind fst snd]. norm_lits. pose proof (blen_nonneg b).
  destruct (Z.ltb_spec (blen b) 1); destruct (Z.ltb_spec (blen b) 3); try lia; reflexivity.
Qed.
Print Assumptions C32_unknown_header.
Example C32_case : exists v, from_bytes (p_HyteraDmrApplicationProtocol V011) (B [0x91; 0; 3; 0; 4; 10; 0; 0; 1; 0x77; 3; 0xee]) = Ok v /\
  getattr "checksum" v = Some (VInt 0x77) /\ getattr "is_reliable_message" v = Some (VBool true).
Proof. eexists. split; [vm_compute; reflexivity|]. vm_compute. split; reflexivity. Qed.
Example C32_case_unknown : exists v, from_bytes (p_HyteraDmrApplicationProtocol V011) (B [0x7f; 9; 3]) = Ok v /\ getattr "checksum" v = Some (VInt 9) /\ getattr "data" v = None.
Proof. eexists. split; [vm_compute; reflexivity|]. vm_compute. split; reflexivity. Qed.

(** * C33 *)
Theorem C33_hrnp_framing : forall rt b,
  from_bytes (p_HyteraRadioNetworkProtocol rt) b =
    if blen b <? 1 then Err EOFError
    else if negb (ubits b 0 8 =? 0x7e) then Err (ValidationNotEqualError (VBytes (B [0x7e])) (VBytes (slice b 0 1)) "/seq/0")
    else if blen b <? 12 then Err EOFError
    else let* d := part "data" (if ubits b 24 8 =? 0 then Some hdap_at else None) b 12 in
      Ok (VObj "HyteraRadioNetworkProtocol" ([("header_identifier", VBytes (B [0x7e])); ("version", VInt (ubits b 8 8)); ("block", VInt (ubits b 16 8));
        ("opcode", resolve_enum HyteraRadioNetworkProtocol_Opcodes (ubits b 24 8)); ("source_id", VInt (ubits b 32 8)); ("destination_id", VInt (ubits b 40 8));
        ("packet_number", VInt (ubits b 48 16)); ("hrnp_packet_length", VInt (ubits b 64 16)); ("checksum", VInt (ubits b 80 16))] ++ fst d)).
Proof. exact hrnp_explicit. Qed.
Print Assumptions C33_hrnp_framing.
Theorem C33_data_iff_opcode : forall rt b v, from_bytes (p_HyteraRadioNetworkProtocol rt) b = Ok v ->
  (getattr "data" v <> None <-> ubits b 24 8 = 0).
Proof.
  intros rt b v. rewrite hrnp_explicit. destruct (_ <? 1); [discriminate|]. destruct (negb _); [discriminate|]. destruct (_ <? 12); [discriminate|].
  destruct (Z.eqb_spec (ubits b 24 8) 0) as [Z|Z]; cbn [part].
  - destruct (hdap_at b 12) as [[d n]|]; [|discriminate]. cbn [rbind fst snd]. intros E. split; [intros _; exact Z|]. intros _.
    match type of E with Ok ?x = _ => assert (v = x) as -> by congruence end. cbn. discriminate.
  - cbn [rbind fst snd]. intros E. split; [|contradiction]. intros X. exfalso. apply X. match type of E with Ok ?x = _ => assert (v = x) as -> by congruence end. reflexivity.
Qed.
Print Assumptions C33_data_iff_opcode.
Example C33_case : exists v, from_bytes (p_HyteraRadioNetworkProtocol V010) (B [0x7e; 4; 0; 0xfe; 0x20; 0x10; 0; 1; 0xab; 0xcd; 0x12; 0x34; 0x99]) = Ok v /\
  getattr "hrnp_packet_length" v = Some (VInt 0xabcd) /\ getattr "data" v = None.
Proof. eexists. split; [vm_compute; reflexivity|]. vm_compute. split; reflexivity. Qed.

(** * C34 *)
Theorem C34_hstrp_framing : forall rt b v, from_bytes (p_HyteraSimpleTransportReliabilityProtocol rt) b = Ok v ->
  6 <= blen b /\ slice b 0 2 = blit "2B" /\
  exists k options tail, 6 <= k <= blen b /\
  v = VObj "HyteraSimpleTransportReliabilityProtocol" ([("header", VBytes (blit "2B")); ("version", VInt (ubits b 16 8)); ("reserved", VInt (ubits b 24 2)); ("has_option", VBool (bit b 26));
    ("is_reject", VBool (bit b 27)); ("is_close", VBool (bit b 28)); ("is_connect", VBool (bit b 29)); ("is_heartbeat", VBool (bit b 30)); ("is_ack", VBool (bit b 31));
    ("sequence_number", VInt (ubits b 32 16))] ++ options ++ tail) /\
  (if (6 <? blen b) && bit b 26 && negb (bit b 30) then exists l, options = [("options", VList l)] /\ l <> [] /\ option_run b 6 l k else options = [] /\ k = 6) /\
  (if k <? blen b then
     if bit b 27 || bit b 28 || bit b 29 then tail = [("extra_data", VBytes (rest b k))]
     else exists l, tail = [("data", VList l)] /\ l <> [] /\ hdap_run rt b k l
   else tail = []).
Proof. exact hstrp_inv. Qed.
Print Assumptions C34_hstrp_framing.
(** acceptance: the header, a complete chain of options, and a sequence of complete messages are all that is needed; which packets fail and how *)
Theorem C34_hstrp_decoding : forall rt b, hstrp b (from_bytes (p_HyteraSimpleTransportReliabilityProtocol rt) b).
Proof. exact hstrp_meets. Qed.
Print Assumptions C34_hstrp_decoding.
Theorem C34_hstrp_determined : forall b r r', hstrp b r -> hstrp b r' -> r = r'.
Proof.
  intros b r r' H H'. inversion H as [x Hx E|h ro rd m ho ct hb Hh Ho Hd E]; inversion H' as [x' Hx' E'|h' ro' rd' m' ho' ct' hb' Hh' Ho' Hd' E']; subst m ho ct hb || idtac; subst m' ho' ct' hb' || idtac; subst; try congruence.
  assert (h = h') as -> by congruence.
  assert (Er : ro = ro').
  { destruct ((6 <? blen b) && bit b 26 && negb (bit b 30)); [|congruence]. destruct Ho as [x [X ->]]. destruct Ho' as [x' [X' ->]]. rewrite (options_det _ _ _ X _ X'). reflexivity. }
  subst ro'. destruct ro as [[ao k]|]; [|reflexivity]. cbn [rbind]. specialize (Hd ao k eq_refl). specialize (Hd' ao k eq_refl).
  assert (Ed : rd = rd').
  { destruct (k <? blen b); [|congruence]. destruct (bit b 27 || bit b 28 || bit b 29); [congruence|]. destruct Hd as [x [X ->]]. destruct Hd' as [x' [X' ->]]. rewrite (messages_det _ _ _ X _ X'). reflexivity. }
  subst rd'. reflexivity.
Qed.
Print Assumptions C34_hstrp_determined.
Theorem C34_bad_header : forall rt b, blen b < 6 \/ slice b 0 2 <> blit "2B" ->
  from_bytes (p_HyteraSimpleTransportReliabilityProtocol rt) b =
    if (2 <=? blen b) && negb (bytes_eqb (slice b 0 2) (blit "2B")) then Err (ValidationNotEqualError (VBytes (blit "2B")) (VBytes (slice b 0 2)) "/seq/0") else Err EOFError.
Proof.
  intros rt b Hb. apply (C34_hstrp_determined b); [apply hstrp_meets|]. pose proof (hstrp_fields b) as F.
  destruct (Z.ltb_spec (blen b) 2) as [L|L]; destruct (Z.leb_spec 2 (blen b)) as [L'|L']; try lia; cbn [andb].
  - apply hstrp_bad. exact F.
  - destruct (bytes_eqb (slice b 0 2) (blit "2B")) eqn:M; cbn [negb] in *; [|apply hstrp_bad; exact F].
    destruct (Z.ltb_spec (blen b) 6) as [L6|L6]; [apply hstrp_bad; exact F|]. apply bytes_eqb_true in M. destruct Hb; [lia|contradiction].
Qed.
Print Assumptions C34_bad_header.
Example C34_case : exists v l, from_bytes (p_HyteraSimpleTransportReliabilityProtocol V010)
   (B [0x32; 0x42; 0; 0x20; 0; 1; 0x83; 4; 1; 2; 3; 4; 4; 1; 9; 0x11; 0; 3; 0; 4; 10; 0; 0; 1; 0x77; 3; 0x7f; 9; 3]) = Ok v /\
   getattr "data" v = Some (VList l) /\ List.length l = 2%nat /\ getattr "options" v <> None /\ getattr "extra_data" v = None.
Proof. do 2 eexists. split; [vm_compute; reflexivity|]. split; [vm_compute; reflexivity|]. vm_compute. repeat split; (reflexivity || discriminate). Qed.
Example C34_case_connect : exists v, from_bytes (p_HyteraSimpleTransportReliabilityProtocol V011) (B [0x32; 0x42; 0; 0x04; 0; 1; 0x83; 4]) = Ok v /\
   getattr "extra_data" v = Some (VBytes (B [0x83; 4])) /\ getattr "data" v = None.
Proof. eexists. split; [vm_compute; reflexivity|]. vm_compute. repeat split; (reflexivity || discriminate). Qed.
