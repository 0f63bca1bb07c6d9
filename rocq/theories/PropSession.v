(** Property C63 (see properties.jsonl): packets stored back to back in one file are read one at a time. *)
From Verif Require Import PyBase Runtime Codec Spec RuntimeProofs Enums Getters EtsiModel HomebrewModel HyteraModel MotorolaModel LazyModel AllParsers PropGeneral2 StableProofs RelocProofs PropReloc KsySchema SessionModel SessionProofs.
Open Scope string_scope.
Open Scope list_scope.
Open Scope Z_scope.

(** * Specification *)

(** A packet: the class that reads it, its bytes, and the object those bytes mean (type and attributes). *)
Record packet := { k_class : class; k_bytes : bytes; k_type : string; k_attrs : attrs }.
(** The class is self-delimiting and does not look at absolute positions (C57); an application message must not be a
    telemetry message.  [from_bytes] on the packet gives the object and uses up the bytes. *)
Definition packet_ok (rt : runtime) (k : packet) : Prop :=
  In (k_class k) self_delimiting /\
  (~ In (fst (k_class k)) position_dependent \/ k_class k = ("HyteraDmrApplicationProtocol", p_HyteraDmrApplicationProtocol) /\ ubits (k_bytes k) 1 7 <> 0x12) /\
  from_bytes (snd (k_class k) rt) (k_bytes k) = Ok (VObj (k_type k) (k_attrs k)) /\
  s_pos (snd (snd (k_class k) rt (stream_of (k_bytes k)))) = List.length (k_bytes k).

(** What [obj.x] gives right after the object was made, with the file at its start. *)
Definition answer (rt : runtime) (contents : bytes) (k : packet) (x : string) : res pyval :=
  fst (ask rt (fst (k_class k)) x {| l_attrs := k_attrs k; l_io := stream_of contents |}).

(** What a program on the file sees: every [Next] the next packet's object, every access to an object's attribute the
    answer for that object - whatever was read or asked before. *)
Fixpoint expected (rt : runtime) (contents : bytes) (known coming : list packet) (acts : list action) : list (option (res pyval)) :=
  match acts with
  | [] => []
  | Next _ :: acts => match coming with
      | k :: coming => Some (Ok (VObj (k_type k) (k_attrs k))) :: expected rt contents (known ++ [k]) coming acts
      | [] => [] end
  | Ask i x :: acts => option_map (fun k => answer rt contents k x) (nth_error known i) :: expected rt contents known coming acts
  | SeekFile _ :: acts => None :: expected rt contents known coming acts
  end.
(** The classes a program constructs, in order. *)
Fixpoint constructed (acts : list action) : list class :=
  match acts with [] => [] | Next c :: acts => c :: constructed acts | _ :: acts => constructed acts end.
(** The program does not move the file itself and does not ask for the private caches [_m_...]. *)
Definition ordinary (a : action) : Prop := match a with Next _ => True | Ask _ x => is_cache x = false | SeekFile _ => False end.
Definition asks_for (x : string) (a : action) : Prop := match a with Ask _ y => y = x | _ => False end.

(** * Proofs *)
Lemma delimiting_known : Forall (fun c => In c all_parsers) self_delimiting.
Proof. unfold self_delimiting. repeat (apply Forall_cons; [in_list|]). apply Forall_nil. Qed.
Lemma delimiting_classes : Forall (fun c : class => existsb (String.eqb (fst c)) position_dependent = true \/ forallb (fun cx => negb (String.eqb (fst c) (fst cx)) || String.eqb (snd cx) "data" || String.eqb (snd cx) "opcode") file_properties = true) self_delimiting.
Proof. unfold self_delimiting. repeat (apply Forall_cons; [first [right; reflexivity|left; reflexivity]|]). apply Forall_nil. Qed.

(** The position and the contents of the file are the same after an access that succeeds - for all properties of all classes. *)
Theorem C63_properties_do_not_move_the_file : forall (rt : runtime) (c x : string) (get : live -> res pyval * live),
  In (c, x, get) (properties rt) -> forall (o o' : live) (v : pyval), get o = (Ok v, o') ->
  s_pos (l_io o') = s_pos (l_io o) /\ s_buf (l_io o') = s_buf (l_io o).
Proof.
  intros rt c x get H o o' v E. destruct (proj1 (Forall_forall _ _) (all_memo rt) _ H) as [[m [M1 M2]]|R]; cbn [fst snd] in *.
  - rewrite M1 in E. unfold memo in E. destruct (lookup _ (l_attrs o)); [injection E as _ <-; auto|].
    destruct (m (l_attrs o) (l_io o)) as [[u|e] s] eqn:F; [|discriminate]. injection E as _ <-. cbn [l_io]. eapply st_pos; eassumption.
  - subst c. unfold properties in H. cbn [In] in H.
    repeat match type of H with _ \/ _ => destruct H as [H|H]; [first [discriminate|injection H as <- <-]|] end; [..|destruct H].
    + eapply rtp_if_exists, E.
    + eapply rtp_padding, E.
Qed.
(** Failing ones can: the body of a data header, from a file of two bytes, leaves the file at its end. *)
Theorem C63_a_failing_property_can_move_the_file : forall rt, exists o, open_object p_DmrDataHeader (B [2; 0]) = Ok o /\
  fst (DmrDataHeader_data rt o) = Err EOFError /\ s_pos (l_io o) = 1%nat /\ s_pos (l_io (snd (DmrDataHeader_data rt o))) = 2%nat.
Proof. intros rt. eexists. split; [vm_compute; reflexivity|]. destruct rt; vm_compute; auto. Qed.

Section Session.
Context (rt : runtime) (contents : bytes).

Definition good_class (c : string) : Prop := forall x, In (c, x) file_properties -> x = "data" /\ c = "DmrDataHeader" \/ x = "opcode" /\ c = "LocationProtocol".
Lemma packet_class k : packet_ok rt k -> good_class (fst (k_class k)) /\ fst (k_class k) <> "RealTimeTransportProtocol".
Proof.
  intros [D [P _]]. assert (G : good_class (fst (k_class k))).
  { destruct (proj1 (Forall_forall _ _) delimiting_classes _ D) as [E|E].
    - destruct P as [P|[P _]].
      + exfalso. apply P. apply existsb_exists in E. destruct E as [y [Y1 Y2]]. apply String.eqb_eq in Y2. congruence.
      + rewrite P. intros x H. unfold file_properties in H. cbn [fst In] in H. intuition discriminate.
    - generalize dependent (fst (k_class k)). intros c _ E x H. rewrite forallb_forall in E. specialize (E _ H). cbn [fst snd] in E. rewrite String.eqb_refl in E. cbn [negb orb] in E.
      apply orb_prop in E. destruct E as [E|E]; apply String.eqb_eq in E; subst x; unfold file_properties in H; cbn [In] in H; intuition congruence. }
  split; [exact G|]. intros E. rewrite E in G. destruct (G "len_padding") as [[X _]|[X _]]; [unfold file_properties; cbn [In]; auto 10|discriminate..].
Qed.
Lemma ask_quiet c x a s : good_class c -> s_buf s = contents -> (12 <= blen contents \/ x <> "data" /\ x <> "opcode") ->
  s_pos (l_io (snd (ask rt c x (mk a s)))) = s_pos s.
Proof.
  intros G B H. destruct (in_dec (fun p q : string * string => ltac:(decide equality; apply string_dec)) (c, x) file_properties) as [I|I].
  - destruct (G x I) as [[-> ->]|[-> ->]].
    + change (ask rt "DmrDataHeader" "data" (mk a s)) with (DmrDataHeader_data rt (mk a s)). apply data_quiet. rewrite B. destruct H as [H|[H _]]; [exact H|contradiction].
    + change (ask rt "LocationProtocol" "opcode" (mk a s)) with (LocationProtocol_opcode rt (mk a s)). apply opcode_quiet. rewrite B. destruct H as [H|[_ H]]; [lia|contradiction].
  - now rewrite (proj2 (ask_pure rt c x a s s I)).
Qed.

Lemma next_packet k before rest : packet_ok rt k -> forall objects,
  from_io rt (k_class k) {| w_file := before ++ k_bytes k ++ rest; w_pos := List.length before; w_objects := objects |} =
  (Ok (VObj (k_type k) (k_attrs k)),
   {| w_file := before ++ k_bytes k ++ rest; w_pos := List.length (before ++ k_bytes k);
      w_objects := objects ++ [{| h_class := fst (k_class k); h_attrs := k_attrs k;
        h_bits := s_bits (snd (snd (k_class k) rt (stream_at before (k_bytes k ++ rest))));
        h_left := s_left (snd (snd (k_class k) rt (stream_at before (k_bytes k ++ rest)))) |}] |}).
Proof.
  intros [D [P [F E]]] objects. unfold from_io, view. cbn [w_file w_pos].
  change {| s_buf := before ++ k_bytes k ++ rest; s_pos := List.length before; s_bits := 0; s_left := 0 |} with (stream_at before (k_bytes k ++ rest)).
  assert (X : fst (snd (k_class k) rt (stream_at before (k_bytes k ++ rest))) = from_bytes (snd (k_class k) rt) (k_bytes k ++ rest) /\
     s_pos (snd (snd (k_class k) rt (stream_at before (k_bytes k ++ rest)))) = (List.length before + s_pos (snd (snd (k_class k) rt (stream_of (k_bytes k ++ rest)))))%nat).
  { destruct P as [P|[P T]].
    - pose proof (proj1 (Forall_forall _ _) delimiting_known _ D) as I. destruct (k_class k) as [n p]. exact (C57_anywhere_in_a_stream n p I P rt before (k_bytes k ++ rest)).
    - rewrite P. cbn [snd]. apply C57_application_messages. rewrite P in F. cbn [snd] in F.
      destruct (k_bytes k) as [|c t]; [destruct rt; vm_compute in F; discriminate|]. Local Transparent ubits. intros U. apply T. rewrite <- U. reflexivity. }
  pose proof (proj1 (Forall_forall _ _) self_delimiting_stable _ D rt) as S. unfold from_bytes in F, X.
  destruct (snd (k_class k) rt (stream_of (k_bytes k))) as [r s1] eqn:R. cbn [fst snd] in F, E. subst r.
  specialize (S _ _ _ rest R). change (extend (stream_of (k_bytes k)) rest) with (stream_of (k_bytes k ++ rest)) in S. rewrite S in X. cbn [fst snd extend s_pos] in X. destruct X as [X1 X2].
  destruct (snd (k_class k) rt (stream_at before (k_bytes k ++ rest))) as [r2 s2]. cbn [fst snd] in *. subst r2. cbv beta iota. rewrite X2, E, app_length. reflexivity.
Qed.

(** What the world looks like between actions. *)
Definition tracks (h : handle) (k : packet) : Prop :=
  h_class h = fst (k_class k) /\ packet_ok rt k /\
  forall x s, is_cache x = false -> s_buf s = contents -> fst (ask rt (h_class h) x (mk (h_attrs h) s)) = answer rt contents k x.
Lemma set_nth_tracks l ks i h k : Forall2 tracks l ks -> nth_error ks i = Some k -> tracks h k -> Forall2 tracks (set_nth i h l) ks.
Proof.
  intros H. revert i. induction H as [|h0 k0 l ks T F IH]; intros [|i] E K; cbn [nth_error set_nth] in *; try discriminate.
  - assert (k0 = k) as -> by congruence. constructor; assumption.
  - constructor; auto.
Qed.
Lemma nth_tracks l ks : Forall2 tracks l ks -> forall i, match nth_error l i, nth_error ks i with Some h, Some k => tracks h k | None, None => True | _, _ => False end.
Proof. induction 1 as [|h k l ks T _ IH]; intros [|i]; cbn [nth_error]; [exact I|exact I|exact T|apply IH]. Qed.
Lemma tracks_new k bits left : packet_ok rt k -> tracks {| h_class := fst (k_class k); h_attrs := k_attrs k; h_bits := bits; h_left := left |} k.
Proof.
  intros P. split; [reflexivity|]. split; [exact P|]. intros x s _ B. cbn [h_class h_attrs]. unfold answer. fold (mk (k_attrs k) (stream_of contents)). apply ask_file; [apply (packet_class k P)|exact B].
Qed.
Lemma tracks_ask h k y s bits left : tracks h k -> s_buf s = contents ->
  tracks {| h_class := h_class h; h_attrs := l_attrs (snd (ask rt (h_class h) y (mk (h_attrs h) s))); h_bits := bits; h_left := left |} k.
Proof.
  intros [C [P A]] B. split; [exact C|]. split; [exact P|]. intros x s0 X B0. cbn [h_class h_attrs]. rewrite <- (A x s X B).
  apply ask_after; [rewrite C; apply (packet_class k P)|exact X|reflexivity|congruence].
Qed.

Lemma session_run acts : forall known coming rest objects,
  contents = List.concat (map k_bytes known) ++ List.concat (map k_bytes coming) ++ rest ->
  Forall (packet_ok rt) coming -> Forall2 tracks objects known ->
  constructed acts = map k_class coming -> Forall ordinary acts ->
  (12 <= blen contents \/ Forall (fun a => ~ asks_for "data" a /\ ~ asks_for "opcode" a) acts) ->
  fst (session rt acts {| w_file := contents; w_pos := List.length (List.concat (map k_bytes known)); w_objects := objects |}) = expected rt contents known coming acts /\
  w_pos (snd (session rt acts {| w_file := contents; w_pos := List.length (List.concat (map k_bytes known)); w_objects := objects |})) = List.length (List.concat (map k_bytes (known ++ coming))).
Proof.
  induction acts as [|a acts IH]; intros known coming rest objects HC HP HT HA HO HL.
  { cbn [constructed] in HA. destruct coming; [|discriminate]. rewrite app_nil_r. split; reflexivity. }
  apply Forall_cons_iff in HO. destruct HO as [Ha HO].
  assert (HL' : 12 <= blen contents \/ Forall (fun a => ~ asks_for "data" a /\ ~ asks_for "opcode" a) acts) by (destruct HL as [|HL]; [auto|right; now apply Forall_cons_iff in HL]).
  destruct a as [c|i x|n]; cbn [ordinary] in Ha; [| |contradiction].
  - cbn [constructed] in HA. destruct coming as [|k coming]; [discriminate|]. cbn [map] in HA. assert (c = k_class k) as -> by congruence. assert (HA' : constructed acts = map k_class coming) by congruence.
    apply Forall_cons_iff in HP. destruct HP as [Hk HP].
    assert (HC' : contents = List.concat (map k_bytes known) ++ k_bytes k ++ (List.concat (map k_bytes coming) ++ rest)) by (rewrite HC; cbn [map List.concat]; rewrite <- !app_assoc; reflexivity).
    cbn [session act expected]. pose proof (next_packet k (List.concat (map k_bytes known)) (List.concat (map k_bytes coming) ++ rest) Hk objects) as N. rewrite <- HC' in N. rewrite N. clear N.
    set (h := {| h_class := _ |}).
    replace (List.length (List.concat (map k_bytes known) ++ k_bytes k)) with (List.length (List.concat (map k_bytes (known ++ [k])))) by (rewrite map_app, concat_app; cbn [map List.concat]; rewrite app_nil_r; reflexivity).
    destruct (IH (known ++ [k]) coming rest (objects ++ [h])) as [I1 I2]; auto.
    { rewrite HC', map_app, concat_app. cbn [map List.concat]. rewrite app_nil_r, <- !app_assoc. reflexivity. }
    { apply Forall2_app; [exact HT|]. constructor; [now apply tracks_new|constructor]. }
    destruct (session rt acts _) as [rs w2]. cbn [fst snd] in *. rewrite I1, I2, <- app_assoc. split; reflexivity.
  - cbn [session act expected constructed w_objects] in *. pose proof (nth_tracks _ _ HT i) as T. destruct (nth_error objects i) as [h|] eqn:E1, (nth_error known i) as [k|] eqn:E2; try contradiction.
    + set (s := view _ _ _). assert (B : s_buf s = contents) by reflexivity. fold (mk (h_attrs h) s).
      pose proof (proj2 (proj2 T) x s Ha B) as A. pose proof (fun bits left => tracks_ask h k x s bits left T B) as T'.
      assert (Q : s_pos (l_io (snd (ask rt (h_class h) x (mk (h_attrs h) s)))) = List.length (List.concat (map k_bytes known))).
      { rewrite ask_quiet; [reflexivity| |exact B|].
        - destruct T as [-> [P _]]. now apply packet_class.
        - destruct HL as [HL|HL]; [auto|]. right. apply Forall_cons_iff in HL. exact (proj1 HL). }
      destruct (ask rt (h_class h) x (mk (h_attrs h) s)) as [r o] eqn:R. cbn [fst snd] in *. subst r. rewrite Q. cbn [w_file option_map].
      set (h' := {| h_class := _ |}).
      destruct (IH known coming rest (set_nth i h' objects)) as [I1 I2]; auto.
      { eapply set_nth_tracks; [exact HT|exact E2|apply T']. }
      destruct (session rt acts _) as [rs w2]. cbn [fst snd] in *. rewrite I1, I2. split; reflexivity.
    + destruct (IH known coming rest objects) as [I1 I2]; auto. destruct (session rt acts _) as [rs w2]. cbn [fst snd] in *. rewrite I1, I2. split; reflexivity.
Qed.
End Session.

(** A file with packets back to back (and anything behind them), opened and read with [from_io] once per packet, in
    between any number of accesses to attributes and properties of any of the objects made so far: every [from_io] gives
    the object of its packet, every access the answer for its object, and the file ends up behind the last packet.
    (In a file of fewer than 12 bytes, [data] of a data header and [opcode] of a location message are left out:
    a failing access may move the file, see above.) *)
Theorem C63_back_to_back : forall (rt : runtime) (packets : list packet) (rest : bytes) (acts : list action),
  let contents := List.concat (map k_bytes packets) ++ rest in
  Forall (packet_ok rt) packets -> constructed acts = map k_class packets -> Forall ordinary acts ->
  (12 <= blen contents \/ Forall (fun a => ~ asks_for "data" a /\ ~ asks_for "opcode" a) acts) ->
  fst (session rt acts (opened contents)) = expected rt contents [] packets acts /\
  w_pos (snd (session rt acts (opened contents))) = List.length (List.concat (map k_bytes packets)).
Proof.
  intros rt packets rest acts contents HP HA HO HL. apply (session_run rt contents acts [] packets rest []); auto.
Qed.

(** The answers: those of the packet read on its own, for every attribute and property except those two ... *)
Theorem C63_answers_as_stand_alone : forall (rt : runtime) (k : packet) (contents : bytes) (x : string), packet_ok rt k ->
  x <> "data" -> x <> "opcode" -> forall o, open_object (snd (k_class k) rt) (k_bytes k) = Ok o ->
  answer rt contents k x = fst (ask rt (fst (k_class k)) x o).
Proof.
  intros rt k contents x P N1 N2 o O. pose proof (proj1 (packet_class rt k P)) as G. destruct P as [_ [_ [F _]]].
  unfold open_object, from_bytes in *. destruct (snd (k_class k) rt (stream_of (k_bytes k))) as [r s]. cbn [fst] in F. subst r. injection O as <-.
  apply (ask_pure rt (fst (k_class k)) x (k_attrs k) (stream_of contents) s). intros I. destruct (G x I) as [[E _]|[E _]]; contradiction.
Qed.
(** ... which are decoded from the beginning of the file, whichever object is asked: [data] from its first twelve octets
    with the format that the object's own first octet says, [opcode] from the first octet of the file. *)
Theorem C63_data_comes_from_the_start_of_the_file : forall (rt : runtime) (k : packet) (contents : bytes) (format : pyval),
  packet_ok rt k -> fst (k_class k) = "DmrDataHeader" -> lookup "data_packet_format" (k_attrs k) = Some format -> lookup "_m_data" (k_attrs k) = None -> 12 <= blen contents ->
  answer rt contents k "data" = from_bytes (data_header_body rt format) (slice contents 0 12).
Proof.
  intros rt k contents f P C L M H. unfold answer. rewrite C. match goal with |- fst (ask _ _ _ ?o) = _ => change (ask rt "DmrDataHeader" "data" o) with (DmrDataHeader_data rt o) end.
  unfold DmrDataHeader_data, memo. cbn [l_attrs l_io]. change ("_m_" ++ "data")%string with "_m_data". rewrite M. unfold bind at 1, stored. rewrite L. unfold ret at 1.
  change (data_header_compute rt f (stream_of contents)) with (peek rt 0 12 (fun raw => from_bytes (data_header_body rt f) raw) (stream_of contents)).
  pose proof (peek_at_0 rt 12 (fun raw => from_bytes (data_header_body rt f) raw) (stream_of contents) ltac:(cbn [stream_of s_buf]; lia)) as E. cbn [stream_of s_buf] in E.
  rewrite <- E. destruct (peek rt 0 12 _ (stream_of contents)) as [[v|e] s]; reflexivity.
Qed.
Theorem C63_opcode_comes_from_the_start_of_the_file : forall (rt : runtime) (k : packet) (contents : bytes),
  packet_ok rt k -> fst (k_class k) = "LocationProtocol" -> lookup "_m_opcode" (k_attrs k) = None -> 1 <= blen contents ->
  answer rt contents k "opcode" = Ok (resolve_enum LocationProtocol_LpGeneralTypes (ubits contents 0 8)).
Proof.
  intros rt k contents P C M H. unfold answer. rewrite C. match goal with |- fst (ask _ _ _ ?o) = _ => change (ask rt "LocationProtocol" "opcode" o) with (LocationProtocol_opcode rt o) end.
  unfold LocationProtocol_opcode, memo. cbn [l_attrs l_io]. change ("_m_" ++ "opcode")%string with "_m_opcode". rewrite M.
  set (m := bind io_pos _). assert (E : m (stream_of contents) = peek rt 0 1 (fun x => Ok (resolve_enum LocationProtocol_LpGeneralTypes (be_int x))) (stream_of contents)).
  { unfold m, peek, venum, read_u1, bind, lift, io_pos, io_seek, ret. cbv beta iota. match goal with |- context [read_bytes rt 1 ?z] => destruct (read_bytes rt 1 z) as [[x|e] s1] end; reflexivity. }
  rewrite E. clear E m. pose proof (peek_at_0 rt 1 (fun x => Ok (resolve_enum LocationProtocol_LpGeneralTypes (be_int x))) (stream_of contents) ltac:(cbn [stream_of s_buf]; lia)) as E. cbn [stream_of s_buf] in E.
  change (ubits contents 0 8) with (ubits contents (8 * 0) 8). rewrite (ubits_byte contents 0) by lia. assert (S : be_int (slice contents 0 1) = bz (nth (Z.to_nat 0) contents Byte.x00)).
  { Local Transparent slice. destruct contents as [|c t]; [unfold blen in H; cbn in H; lia|]. reflexivity. }
  rewrite <- S. rewrite <- E. destruct (peek rt 0 1 _ (stream_of contents)) as [[v|e] s]; reflexivity.
Qed.

(** [from_file] is [from_bytes] of the contents; the file stays open exactly if an object was made. *)
Theorem C63_from_file : forall (rt : runtime) (c : class) (contents : bytes),
  fst (from_file rt c contents) = from_bytes (snd c rt) contents /\ (snd (from_file rt c contents) = true <-> exists v, from_bytes (snd c rt) contents = Ok v).
Proof.
  intros rt c contents. unfold from_file, from_bytes. destruct (snd c rt (stream_of contents)) as [[v|e] s]; cbn [fst snd]; split; try reflexivity; split; eauto; [discriminate|intros [v E]; discriminate].
Qed.

(** A registration message (11 octets) and a radio address (4 octets) in one file, followed by one more octet; the address
    is asked for both its properties, before and after the first object is looked at. *)
Definition registration : bytes := B [0x11; 0; 3; 0; 4; 0x0a; 0x23; 0x38; 0x63; 0x63; 3].
Definition address : bytes := B [0x0a; 0x23; 0x38; 0x63].
Example C63_case : forall rt, exists t1 a1 a2,
  let k1 := {| k_class := ("HyteraDmrApplicationProtocol", p_HyteraDmrApplicationProtocol); k_bytes := registration; k_type := t1; k_attrs := a1 |} in
  let k2 := {| k_class := ("RadioIp", p_RadioIp); k_bytes := address; k_type := "RadioIp"; k_attrs := a2 |} in
  let acts := [Next (k_class k1); Next (k_class k2); Ask 1 "radio_ip"; Ask 0 "message_footer"; Ask 1 "radio_ip"; Ask 1 "radio_id"] in
  Forall (packet_ok rt) [k1; k2] /\ constructed acts = map k_class [k1; k2] /\ Forall ordinary acts /\ 12 <= blen (registration ++ address ++ B [0]) /\
  expected rt (registration ++ address ++ B [0]) [] [k1; k2] acts =
    [Some (Ok (VObj t1 a1)); Some (Ok (VObj "RadioIp" a2)); Some (Ok (VStr (lit "10.35.56.99"))); Some (Ok (VBytes (B [3]))); Some (Ok (VStr (lit "10.35.56.99"))); Some (Ok (VInt 0x233863))].
Proof.
  intros rt. do 3 eexists. cbv zeta. split; [|split; [reflexivity|split; [repeat constructor|split; [vm_compute; discriminate|]]]].
  - apply Forall_cons; [|apply Forall_cons; [|apply Forall_nil]]; (split; [|split; [|split]]); cbn [k_class k_bytes k_type k_attrs fst snd].
    + apply (nth_error_In self_delimiting 102). reflexivity.
    + right. split; [reflexivity|]. vm_compute. discriminate.
    + destruct rt; vm_compute; reflexivity.
    + destruct rt; vm_compute; reflexivity.
    + apply (nth_error_In self_delimiting 55). reflexivity.
    + left. unfold position_dependent. cbn [In]. intuition discriminate.
    + destruct rt; vm_compute; reflexivity.
    + destruct rt; vm_compute; reflexivity.
  - destruct rt; vm_compute; reflexivity.
Qed.
(** Two data headers of different formats in one file of 24 octets: the second one's [data] is decoded from the first
    one's octets. *)
Example C63_case_data : forall rt, exists a,
  let contents := B [2; 96; 35; 55; 170; 35; 55; 171; 130; 0; 1; 2] ++ B [3; 96; 35; 55; 170; 35; 55; 172; 130; 0; 1; 2] in
  let k := {| k_class := ("DmrDataHeader", fun _ => p_DmrDataHeader); k_bytes := B [3]; k_type := "DmrDataHeader"; k_attrs := a |} in
  packet_ok rt k /\ lookup "data_packet_format" a = Some (VEnum "DmrDataHeader.DataPacketFormats" "data_packet_confirmed" 3) /\ lookup "_m_data" a = None /\ 12 <= blen contents /\
  exists body, answer rt contents k "data" = Ok (VObj "DmrDataHeader.DataHeaderConfirmed" body) /\ lookup "llid_source" body = Some (VInt 0x2337ab).
Proof.
  intros rt. eexists. cbv zeta. split; [|split; [|split; [|split]]].
  - split; [|split; [|split]]; cbn [k_class k_bytes k_type k_attrs fst snd].
    + apply (nth_error_In self_delimiting 30). reflexivity.
    + left. unfold position_dependent. cbn [In]. intuition discriminate.
    + vm_compute. reflexivity.
    + vm_compute. reflexivity.
  - reflexivity.
  - reflexivity.
  - vm_compute. discriminate.
  - destruct rt; vm_compute; eexists; split; reflexivity.
Qed.
Definition C63_all := (C63_properties_do_not_move_the_file, C63_a_failing_property_can_move_the_file, C63_back_to_back, C63_answers_as_stand_alone, C63_data_comes_from_the_start_of_the_file, C63_opcode_comes_from_the_start_of_the_file, C63_from_file).
Print Assumptions C63_all.
