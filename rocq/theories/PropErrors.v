(** Property C66 (see properties.jsonl): which exceptions the properties of a parsed object can raise. *)
From Coq Require Import Lia.
From Verif Require Import PyBase Runtime Codec Spec RuntimeProofs Enums EnumProofs Getters EtsiModel HomebrewModel HomebrewCor HyteraModel MotorolaModel LazyModel AllParsers PropGeneral2 Ksy KsyDefs KsySchema KsyTyped PropKsy PropSchema SessionModel SessionProofs.
Open Scope string_scope.
Open Scope list_scope.
Open Scope Z_scope.

(** * Specification *)

(** The object has no attribute [x]. *)
Definition lacks (x : string) (a : attrs) : Prop := lookup x a = None.
(** The first access of property [x] of an object of class [c] with attributes [a], whose stream is on these bytes, raises [e]. *)
Definition raises (c x : string) (a : attrs) (file : bytes) (e : exn) : Prop :=
  (* the type letter: fifth octet of the file, ASCII *)
  (In c ["Homebrew2015"; "Mmdvm2020"] /\ x = "fifth_letter" /\
    ((blen file < 5 /\ e = EOFError) \/ (exists b0 b1 b2 b3 b4 rest, file = b0 :: b1 :: b2 :: b3 :: b4 :: rest /\ 128 <= bz b4 /\ e = UnicodeDecodeError "ascii"))) \/
  (* the service: first two octets of the file *)
  (c = "TelemetryProtocol" /\ x = "specific_service" /\ blen file < 2 /\ e = EOFError) \/
  (* the body: first twelve octets of the file *)
  (c = "DmrDataHeader" /\ x = "data" /\ blen file < 12 /\ e = EOFError) \/
  (* the status octet is not ASCII *)
  (c = "Gpsdata" /\ x = "gps_available" /\ exists status, lookup "gps_status" a = Some (VBytes [status]) /\ 128 <= bz status /\ e = UnicodeDecodeError "ascii") \/
  (* the upper bits of the sequence number are not in the packet *)
  (c = "MotTextMessageProtocol_TextMessageHeaderSequenceAndEncoding" /\ x = "sequence_number" /\ lacks "sequence_number_msb_bits" a /\ e = AttributeError "sequence_number_msb_bits") \/
  (c = "MotTextMessageProtocol_TmsAcknowledgementHeaderSequenceNumber" /\ x = "sequence_number" /\ lacks "header_msb_bits" a /\ e = AttributeError "header_msb_bits") \/
  (* the option length is not in the packet although the option flag is set *)
  (c = "TextMessageProtocol" /\ x = "option_sum_len" /\ (exists n, lookup "option_flag" a = Some (VEnum "TextMessageProtocol.OptionFlags" n 1)) /\ lacks "option_field_len" a /\ e = AttributeError "option_field_len").

(** * Proofs *)
Lemma lookup_public x a : is_cache x = false -> lookup x (public a) = lookup x a.
Proof.
  intros H. unfold public. induction a as [|[m v] a IH]; [reflexivity|]. cbn [filter fst lookup]. destruct (is_cache m) eqn:M; cbn [negb lookup].
  - destruct (String.eqb_spec x m); [congruence|exact IH].
  - destruct (String.eqb x m); [reflexivity|exact IH].
Qed.
Lemma nodup_parsers : nodup_s (map fst all_parsers) = true.
Proof. unfold all_parsers. cbn [map fst app]. vm_compute. reflexivity. Qed.
Lemma nodup_all : nodup_s (map fst all_definitions) = true. Proof. vm_compute. reflexivity. Qed.
Ltac is_all := lazymatch goal with |- In ?x all_definitions => let l := eval cbv delta [all_definitions definitions embedded app] beta iota in all_definitions in let n := index x l in apply (nth_error_In all_definitions n); reflexivity end.
Lemma attributes_of n T T' c a : In (n, T) all_definitions -> In (n, T') all_definitions -> object_of T (VObj c a) -> object_of T' (VObj c a).
Proof. intros H H' O. assert (T' = T) as -> by exact (nodup_unique _ nodup_all _ _ _ H' H). exact O. Qed.
(** What a memoised property raises: what its computation raises. *)
Lemma memo_raises x m o e : fst (memo x m o) = Err e <-> lookup ("_m_" ++ x)%string (l_attrs o) = None /\ fst (m (l_attrs o) (l_io o)) = Err e.
Proof.
  unfold memo. destruct (lookup _ (l_attrs o)); cbn [fst]; [split; [discriminate|intros H; destruct H; discriminate]|].
  destruct (m (l_attrs o) (l_io o)) as [[v|e'] s]; cbn [fst]; split; intros H.
  - discriminate.
  - destruct H as [_ H]. discriminate.
  - split; [reflexivity|congruence].
  - destruct H as [_ H]. congruence.
Qed.
Lemma memo_never x m o : (exists v, fst (m (l_attrs o) (l_io o)) = Ok v) -> forall e, fst (memo x m o) <> Err e.
Proof. intros [v V] e H. apply memo_raises in H as [_ H]. congruence. Qed.

(** ** Properties of the file *)
Lemma read_short rt n s : 0 <= n -> blen (s_buf s) < n -> fst (read_bytes rt n (snd (io_seek rt 0 s))) = Err EOFError.
Proof.
  intros N H. unfold read_bytes, raw_read_bytes, io_seek, io_read. destruct (Z.ltb_spec n 0); [lia|].
  assert (X : forall t, s_buf t = s_buf s -> s_pos t = 0%nat -> fst (let '(got, s') := (if blen (skipn (s_pos t) (s_buf t)) <=? n then skipn (s_pos t) (s_buf t) else firstn (Z.to_nat n) (skipn (s_pos t) (s_buf t)), set_pos t (s_pos t + List.length (if blen (skipn (s_pos t) (s_buf t)) <=? n then skipn (s_pos t) (s_buf t) else firstn (Z.to_nat n) (skipn (s_pos t) (s_buf t))))) in if blen got <? n then (@Err bytes EOFError, s') else (Ok got, s')) = Err EOFError).
  { intros t -> ->. cbn [skipn]. destruct (Z.leb_spec (blen (s_buf s)) n); [|lia]. destruct (Z.ltb_spec (blen (s_buf s)) n); [reflexivity|lia]. }
  destruct rt; cbv zeta; apply X; reflexivity.
Qed.
Lemma peek_short rt n f s : 0 <= n -> blen (s_buf s) < n -> fst (peek rt 0 n f s) = Err EOFError.
Proof.
  intros N H. pose proof (read_short rt n s N H) as R. unfold peek, bind, io_pos. change (io_seek rt 0 s) with (@Ok unit tt, snd (io_seek rt 0 s)). cbv beta iota.
  destruct (read_bytes rt n (snd (io_seek rt 0 s))) as [[x|e] s1]; cbn [fst] in *; congruence.
Qed.
Lemma peek_raises rt n f s e : 0 <= n -> (forall x, blen x = n -> exists v, f x = Ok v) -> fst (peek rt 0 n f s) = Err e <-> blen (s_buf s) < n /\ e = EOFError.
Proof.
  intros N F. destruct (Z.lt_ge_cases (blen (s_buf s)) n) as [L|L].
  - rewrite peek_short by assumption. split; [intros H; split; congruence|intros [_ ->]; reflexivity].
  - rewrite peek_at_0 by lia. destruct (F (slice (s_buf s) 0 n)) as [v V]; [apply slice_length; lia|]. rewrite V. split; [discriminate|lia].
Qed.
Lemma fifth_raises b e : fifth_value b = Err e <-> (blen b < 5 /\ e = EOFError) \/ (exists b0 b1 b2 b3 b4 rest, b = b0 :: b1 :: b2 :: b3 :: b4 :: rest /\ 128 <= bz b4 /\ e = UnicodeDecodeError "ascii").
Proof.
  unfold fifth_value. destruct (Z.leb_spec (blen b) 4) as [L|L].
  - split; [intros H; left; split; [lia|congruence]|]. intros [[_ ->]|[b0 [b1 [b2 [b3 [b4 [r [-> _]]]]]]]]; [reflexivity|]. unfold blen in L. cbn [List.length] in L. lia.
  - destruct b as [|b0 [|b1 [|b2 [|b3 [|b4 r]]]]]; try (unfold blen in L; cbn in L; lia).
    change (slice (b0 :: b1 :: b2 :: b3 :: b4 :: r) 4 1) with [b4].
    assert (D : decode_text ASCII [b4] = if bz b4 <? 128 then Some [bz b4] else None) by (destruct b4; reflexivity). rewrite D.
    destruct (Z.ltb_spec (bz b4) 128) as [A|A]; split; intros H.
    + discriminate.
    + destruct H as [[H _]|[c0 [c1 [c2 [c3 [c4 [t [E [G _]]]]]]]]]; [lia|]. injection E as _ _ _ _ -> _. lia.
    + right. exists b0, b1, b2, b3, b4, r. split; [reflexivity|]. split; [exact A|congruence].
    + destruct H as [[H _]|[c0 [c1 [c2 [c3 [c4 [t [E [G ->]]]]]]]]]; [lia|reflexivity].
Qed.

(** ** Properties of the attributes *)
Fixpoint attr_names (q : attr_list) : list string := match q with Nil => [] | Attr x _ _ _ _ q => x :: attr_names q end.
(** The entry of [x]: can it be missing, and the value. *)
Fixpoint entry (x : string) (q : attr_list) : option (bool * rep * option enumdef * ty) :=
  match q with
  | Nil => None
  | Attr y c r en t q => if String.eqb x y then (if existsb (String.eqb x) (attr_names q) then None else
      Some (negb (match c with ETrue => match r with Once => negb (can_be_left_out t) | _ => true end | _ => false end), r, en, t)) else entry x q
  end.
Lemma names_within q a : has_attributes q a -> forall x, existsb (String.eqb x) (attr_names q) = false -> lookup x a = None.
Proof.
  revert a. induction q as [|y c r en t q IH]; intros a H x N; inversion H; subst; [reflexivity| |]; cbn [attr_names existsb] in N; apply Bool.orb_false_iff in N as [N1 N2].
  - cbn [lookup]. rewrite N1. now apply IH.
  - now apply IH.
Qed.
Lemma entry_value q a : has_attributes q a -> forall x optional r en t, entry x q = Some (optional, r, en, t) ->
  (exists v, lookup x a = Some v /\ occurs r en t v) \/ (optional = true /\ lookup x a = None).
Proof.
  revert a. induction q as [|y c r en t q IH]; intros a H x optional r' en' t' F; cbn [entry] in F; [discriminate|]. destruct (String.eqb x y) eqn:X.
  - destruct (existsb _ _) eqn:N; [discriminate|]. injection F as F1 <- <- <-. inversion H; subst.
    + left. exists v. cbn [lookup]. rewrite X. auto.
    + right. split; [|eapply names_within; eassumption]. destruct c; try reflexivity. match goal with K : _ \/ _ |- _ => destruct K as [X1|[X2 X3]] end; [congruence|]. subst r. rewrite X3. reflexivity.
  - inversion H; subst; [|eapply IH; eassumption]. cbn [lookup]. rewrite X. eapply IH; eassumption.
Qed.
Definition body (T : typ) : attr_list := match T with Typ _ q => q end.
Lemma stored_value T c a : object_of T (VObj c a) -> forall x optional r en t, is_cache x = false -> entry x (body T) = Some (optional, r, en, t) ->
  (exists v, lookup x a = Some v /\ occurs r en t v) \/ (optional = true /\ lookup x a = None).
Proof. intros O x optional r en t X. inversion O; subst. rewrite <- (lookup_public x a X). now apply entry_value. Qed.
Lemma once en t v : occurs Once en t v -> typed en t v. Proof. intros H. inversion H; subst; [assumption|congruence]. Qed.
(** Numbers and flags that are always there. *)
Lemma stored_number T c a : object_of T (VObj c a) -> forall x r en t, is_cache x = false -> entry x (body T) = Some (false, r, en, t) ->
  match r, en, t with Once, None, TBits _ | Once, None, TInt _ => True | _, _, _ => False end -> exists z, lookup x a = Some (VInt z).
Proof.
  intros O x r en t X E K. destruct (stored_value T c a O x false r en t X E) as [[v [L V]]|[N _]]; [|discriminate]. rewrite L. destruct r; try contradiction. destruct en; [contradiction|].
  apply once in V. destruct t; try contradiction; inversion V; subst; match goal with H : number_or_member None _ _ _ |- _ => destruct H as [z [-> _]] end; eauto.
Qed.
Lemma stored_any T c a : object_of T (VObj c a) -> forall x r en t, is_cache x = false -> entry x (body T) = Some (false, r, en, t) -> exists v, lookup x a = Some v /\ occurs r en t v.
Proof. intros O x r en t X E. destruct (stored_value T c a O x false r en t X E) as [H|[N _]]; [exact H|discriminate]. Qed.
Lemma flag en v : typed en TFlag v -> exists b, v = VBool b. Proof. intros H. inversion H; subst. eauto. Qed.
(** A property whose computation gives a value for these attributes. *)
Ltac number O x := let z := fresh "z" in let L := fresh "L" in
  destruct (stored_number _ _ _ O x _ _ _ eq_refl eq_refl I) as [z L].
Ltac fine := apply memo_never; cbn [l_attrs l_io]; unfold bind, stored_int, stored, ret; repeat match goal with L : lookup _ _ = Some _ |- _ => rewrite L; clear L end; eexists; reflexivity.
Section Attributes.
Context (c : string) (s : stream) (a : attrs).
Notation o := {| l_attrs := a; l_io := s |}.
Lemma fine_radio_ip_id : object_of T_RadioIp (VObj c a) -> forall e, fst (RadioIp_radio_id o) <> Err e.
Proof. intros O. number O "radio_id_1". number O "radio_id_2". number O "radio_id_3". unfold RadioIp_radio_id. fine. Qed.
Lemma fine_radio_ip : object_of T_RadioIp (VObj c a) -> forall e, fst (RadioIp_radio_ip o) <> Err e.
Proof. intros O. number O "subnet". number O "radio_id_1". number O "radio_id_2". number O "radio_id_3". unfold RadioIp_radio_ip. fine. Qed.
Lemma fine_radio_id : object_of T_RadioId (VObj c a) -> forall e, fst (RadioId_radio_id o) <> Err e.
Proof. intros O. number O "radio_id_raw". unfold RadioId_radio_id. fine. Qed.
Lemma fine_source : object_of T_IpSiteConnectProtocol (VObj c a) -> forall e, fst (IpSiteConnectProtocol_source_radio_id o) <> Err e.
Proof. intros O. number O "source_radio_id_raw". unfold IpSiteConnectProtocol_source_radio_id. fine. Qed.
Lemma fine_destination : object_of T_IpSiteConnectProtocol (VObj c a) -> forall e, fst (IpSiteConnectProtocol_destination_radio_id o) <> Err e.
Proof. intros O. number O "destination_radio_id_raw". unfold IpSiteConnectProtocol_destination_radio_id. fine. Qed.
Lemma fine_color : object_of T_IpSiteConnectProtocol (VObj c a) -> forall e, fst (IpSiteConnectProtocol_color_code o) <> Err e.
Proof. intros O. number O "color_code_raw". unfold IpSiteConnectProtocol_color_code. fine. Qed.
Lemma fine_wakeup : object_of T_IpSiteConnectProtocol (VObj c a) -> forall e, fst (IpSiteConnectProtocol_is_wakeup o) <> Err e.
Proof.
  intros O. destruct (stored_any _ _ _ O "call_type" _ _ _ eq_refl eq_refl) as [v [L _]]. destruct (stored_any _ _ _ O "slot_type" _ _ _ eq_refl eq_refl) as [v' [L' _]].
  unfold IpSiteConnectProtocol_is_wakeup. fine.
Qed.
Lemma fine_blocks T : In T [T_DmrDataHeader_DataHeaderShortRaw; T_DmrDataHeader_DataHeaderShortDefined; T_DmrDataHeader_DataHeaderShortStatusPrecoded] ->
  object_of T (VObj c a) -> forall e, fst (appended_blocks o) <> Err e.
Proof. intros [<-|[<-|[<-|[]]]] O; number O "appended_blocks_msb"; number O "appended_blocks_lsb"; unfold appended_blocks; fine. Qed.
Lemma header_object T x t : object_of T (VObj c a) -> is_cache x = false -> entry x (body T) = Some (false, Once, None, TLocal t) ->
  exists c1 h, lookup x a = Some (VObj c1 h) /\ object_of t (VObj c1 h).
Proof.
  intros O X E. destruct (stored_any _ _ _ O x _ _ _ X E) as [v [L V]]. apply once in V. inversion V as [| | | | | | | | | |? ? ? V'| |]; subst. inversion V'; subst. eauto.
Qed.
Lemma fine_pdu_type : object_of T_MotTextMessageProtocol (VObj c a) -> forall e, fst (MotTextMessageProtocol_custom_pdu_type_property o) <> Err e.
Proof.
  intros O. destruct (header_object _ "message_header" _ O eq_refl eq_refl) as [c1 [h [L O1]]].
  destruct (stored_any _ _ _ O1 "acknowledgement_required" _ _ _ eq_refl eq_refl) as [v1 [L1 V1]]. apply once, flag in V1 as [b1 ->].
  destruct (stored_any _ _ _ O1 "control_user_bit" _ _ _ eq_refl eq_refl) as [v2 [L2 V2]]. apply once, flag in V2 as [b2 ->]. number O1 "pdu_type".
  unfold MotTextMessageProtocol_custom_pdu_type_property. apply memo_never. cbn [l_attrs l_io]. unfold bind, stored, attribute, ret.
  assert (X : forall x, getattr x (VObj c1 h) = lookup x h) by reflexivity.
  repeat (cbv beta iota; first [rewrite L|rewrite X|rewrite L1|rewrite L2|rewrite L0]). cbn [int_of_bool number_of]. eexists; reflexivity.
Qed.
Lemma gps_raises : object_of T_Gpsdata (VObj c a) -> forall e, fst (Gpsdata_gps_available o) = Err e <->
  lookup "_m_gps_available" a = None /\ exists status, lookup "gps_status" a = Some (VBytes [status]) /\ 128 <= bz status /\ e = UnicodeDecodeError "ascii".
Proof.
  intros O e. unfold Gpsdata_gps_available. rewrite memo_raises. cbn [l_attrs l_io String.append append].
  assert (exists st, lookup "gps_status" a = Some (VBytes [st])) as [st E1].
  { destruct (stored_any _ _ _ O "gps_status" _ _ _ eq_refl eq_refl) as [v [L V]]. apply once in V. inversion V as [| | |? ? x K| | | | | | | | |]; subst. specialize (K 1 eq_refl).
    destruct x as [|b0 [|? ?]]; unfold blen in K; cbn [List.length] in K; [lia|eauto|lia]. }
  rewrite E1. assert (D : py_decode ASCII [st] = if bz st <? 128 then Ok [bz st] else Err (UnicodeDecodeError "ascii")) by (destruct st; reflexivity).
  unfold bind, stored. rewrite E1. unfold ret at 1, lift. rewrite D. destruct (Z.ltb_spec (bz st) 128) as [B|B]; cbn [fst ret]; split; intros [L H]; (split; [exact L|]).
  - discriminate.
  - destruct H as [x [X [Y _]]]. injection X as ->. lia.
  - exists st. split; [reflexivity|]. split; [exact B|congruence].
  - destruct H as [x [_ [_ ->]]]. reflexivity.
Qed.
Lemma maybe_number T x n : object_of T (VObj c a) -> is_cache x = false -> entry x (body T) = Some (true, Once, None, n) -> match n with TBits _ | TInt _ => True | _ => False end ->
  lookup x a = None \/ exists z, lookup x a = Some (VInt z).
Proof.
  intros O X E K. destruct (stored_value T c a O x _ _ _ _ X E) as [[v [L V]]|[_ N]]; [|left; exact N]. right. rewrite L. apply once in V.
  destruct n; try contradiction; inversion V; subst; match goal with H : number_or_member None _ _ _ |- _ => destruct H as [z [-> _]] end; eauto.
Qed.
Lemma two_parts T x y : object_of T (VObj c a) -> (lookup x a = None \/ exists z, lookup x a = Some (VInt z)) -> (exists z, lookup y a = Some (VInt z)) -> forall e,
  fst ((msb <- stored_int x a;; lsb <- stored_int y a;; ret (VInt (Z.shiftl msb 4 + lsb))) s) = Err e <-> lacks x a /\ e = AttributeError x.
Proof.
  intros _ [L|[z L]] [z' L'] e; unfold bind, stored_int, stored, lacks; rewrite L; cbn [fail fst]; unfold ret at 1.
  - split; [intros H; split; [reflexivity|]|intros [_ ->]; reflexivity]. unfold bind, fail in H. cbn [fst] in H. congruence.
  - unfold bind, ret. rewrite L'. cbn [fst]. split; [discriminate|]. intros [H _]. discriminate.
Qed.
Lemma text_header_raises : object_of T_MotTextMessageProtocol_TextMessageHeaderSequenceAndEncoding (VObj c a) -> forall e, fst (MotTextMessageProtocol_TextMessageHeader_sequence_number o) = Err e <->
  lookup "_m_sequence_number" a = None /\ lacks "sequence_number_msb_bits" a /\ e = AttributeError "sequence_number_msb_bits".
Proof.
  intros O e. unfold MotTextMessageProtocol_TextMessageHeader_sequence_number. rewrite memo_raises. cbn [l_attrs l_io].
  rewrite (two_parts _ _ _ O (maybe_number _ "sequence_number_msb_bits" _ O eq_refl eq_refl I) (stored_number _ _ _ O "sequence_number_lsb_bits" _ _ _ eq_refl eq_refl I)). reflexivity.
Qed.
Lemma ack_header_raises : object_of T_MotTextMessageProtocol_TmsAcknowledgementHeaderSequenceNumber (VObj c a) -> forall e, fst (MotTextMessageProtocol_TmsAcknowledgementHeader_sequence_number o) = Err e <->
  lookup "_m_sequence_number" a = None /\ lacks "header_msb_bits" a /\ e = AttributeError "header_msb_bits".
Proof.
  intros O e. unfold MotTextMessageProtocol_TmsAcknowledgementHeader_sequence_number. rewrite memo_raises. cbn [l_attrs l_io].
  rewrite (two_parts _ _ _ O (maybe_number _ "header_msb_bits" _ O eq_refl eq_refl I) (stored_number _ _ _ O "header_lsb_bits" _ _ _ eq_refl eq_refl I)). reflexivity.
Qed.
Lemma option_raises : object_of T_TextMessageProtocol (VObj c a) -> forall e, fst (TextMessageProtocol_option_sum_len_property o) = Err e <->
  lookup "_m_option_sum_len" a = None /\ (exists n, lookup "option_flag" a = Some (VEnum "TextMessageProtocol.OptionFlags" n 1)) /\ lacks "option_field_len" a /\ e = AttributeError "option_field_len".
Proof.
  intros O e. unfold TextMessageProtocol_option_sum_len_property. rewrite memo_raises. cbn [l_attrs l_io append].
  destruct (stored_any _ _ _ O "option_flag" _ _ _ eq_refl eq_refl) as [v [E1 V]]. apply once in V. inversion V as [? ? ? F| | | | | | | | | | | |]; subst.
  assert (exists m z, v = VEnum "TextMessageProtocol.OptionFlags" m z /\ (z = 0 \/ z = 1)) as [m [z [-> Z]]].
  { destruct F as [[m [z [-> [I R]]]]|[z [-> [I R]]]]; [exists m, z; split; [reflexivity|change (2 ^ Z.max 0 1) with 2 in R; lia]|]. exfalso. apply I. change (2 ^ Z.max 0 1) with 2 in R. assert (z = 0 \/ z = 1) as [->| ->] by lia; cbn; tauto. }
  pose proof (maybe_number _ "option_field_len" _ O eq_refl eq_refl I) as E2. unfold lacks, bind, stored_int, stored. rewrite E1. unfold ret at 1 2. destruct Z as [-> | ->].
  - cbv beta iota. change (0 =? 1) with false. cbv iota. cbn [fst ret]. split; intros [L H]; [discriminate|]. destruct H as [[n H] _]. congruence.
  - cbv beta iota. change (1 =? 1) with true. cbv iota. destruct E2 as [E2|[k E2]]; unfold bind; rewrite E2; unfold fail, ret; cbn [fst]; split; intros [L H]; (split; [exact L|]).
    + split; [eauto|]. split; [reflexivity|]. revert H. clear. change (1 =? 1) with true. cbv iota. cbn [fst]. congruence.
    + destruct H as [_ [_ ->]]. reflexivity.
    + discriminate.
    + destruct H as [_ [H _]]. discriminate.
Qed.
End Attributes.

(** ** Properties that read the file *)
Lemma opcode_fine rt o : 1 <= blen (s_buf (l_io o)) -> forall e, fst (LocationProtocol_opcode rt o) <> Err e.
Proof.
  intros H e. unfold LocationProtocol_opcode. rewrite memo_raises. intros [_ X]. destruct o as [a s]. cbn [l_attrs l_io] in *.
  set (m := bind io_pos _) in X. assert (E : m s = peek rt 0 1 (fun x => Ok (resolve_enum LocationProtocol_LpGeneralTypes (be_int x))) s).
  { unfold m, peek, venum, read_u1, bind, lift, io_pos, io_seek, ret. cbv beta iota. match goal with |- context [read_bytes rt 1 ?z] => destruct (read_bytes rt 1 z) as [[x|e'] s1] end; reflexivity. }
  rewrite E in X. clear E m. apply peek_raises in X; [lia|lia|]. intros x _. eexists. reflexivity.
Qed.
Lemma service_raises rt o e : fst (TelemetryProtocol_specific_service_property rt o) = Err e <-> lookup "_m_specific_service" (l_attrs o) = None /\ blen (s_buf (l_io o)) < 2 /\ e = EOFError.
Proof.
  unfold TelemetryProtocol_specific_service_property. rewrite memo_raises. destruct o as [a s]. cbn [l_attrs l_io append].
  assert (E : TelemetryProtocol_specific_service rt s = peek rt 0 2 (fun x => Ok (resolve_enum TelemetryProtocol_ServiceSpecificTypes (be_int x))) s).
  { unfold TelemetryProtocol_specific_service, peek, venum, read_u2be, bind, lift, io_pos, io_seek, ret. cbv beta iota. match goal with |- context [read_bytes rt 2 ?z] => destruct (read_bytes rt 2 z) as [[x|e'] s1] end; reflexivity. }
  rewrite E. rewrite peek_raises; [reflexivity|lia|]. intros x _. eexists. reflexivity.
Qed.
Lemma data_raises rt c o e : object_of T_DmrDataHeader (VObj c (l_attrs o)) -> fst (DmrDataHeader_data rt o) = Err e <-> lookup "_m_data" (l_attrs o) = None /\ blen (s_buf (l_io o)) < 12 /\ e = EOFError.
Proof.
  intros O. unfold DmrDataHeader_data. rewrite memo_raises. destruct o as [a s]. cbn [l_attrs l_io append] in *.
  destruct (stored_any _ _ _ O "data_packet_format" _ _ _ eq_refl eq_refl) as [f [L _]]. unfold bind at 1, stored. rewrite L. unfold ret at 1.
  change (data_header_compute rt f s) with (peek rt 0 12 (fun raw => from_bytes (data_header_body rt f) raw) s). rewrite peek_raises; [reflexivity|lia|]. intros x X. now apply body_total.
Qed.
Lemma letter_raises rt o e m : (forall s, m s = (x <- Homebrew2015_fifth_letter rt;; ret (VStr x)) s) ->
  fst (memo "fifth_letter" (fun _ => m) o) = Err e <-> lookup "_m_fifth_letter" (l_attrs o) = None /\
    ((blen (s_buf (l_io o)) < 5 /\ e = EOFError) \/ (exists b0 b1 b2 b3 b4 rest, s_buf (l_io o) = b0 :: b1 :: b2 :: b3 :: b4 :: rest /\ 128 <= bz b4 /\ e = UnicodeDecodeError "ascii")).
Proof.
  intros M. rewrite memo_raises. cbn [append]. rewrite M. pose proof (fifth_any rt _ (l_io o) eq_refl) as F.
  destruct ((x <- Homebrew2015_fifth_letter rt;; ret (VStr x)) (l_io o)) as [r s']. destruct F as [-> _]. cbn [fst]. rewrite fifth_raises. reflexivity.
Qed.
Lemma last_octet rt s : 1 <= blen (s_buf s) -> exists n s', RealTimeTransportProtocol_len_padding_if_exists rt s = (Ok n, s').
Proof.
  intros H. unfold RealTimeTransportProtocol_len_padding_if_exists, bind, io_pos, io_size. cbv beta iota. change (io_seek rt (blen (s_buf s) - 1) s) with (@Ok unit tt, snd (io_seek rt (blen (s_buf s) - 1) s)). cbv beta iota. unfold read_u1, bind.
  assert (X : exists x s1, read_bytes rt 1 (snd (io_seek rt (blen (s_buf s) - 1) s)) = (Ok x, s1)).
  { unfold read_bytes, raw_read_bytes, io_seek, io_read. change (1 <? 0) with false. cbv iota.
    assert (Y : forall t, s_buf t = s_buf s -> s_pos t = Z.to_nat (blen (s_buf s) - 1) -> exists x s1, (let '(got, s') := (if blen (skipn (s_pos t) (s_buf t)) <=? 1 then skipn (s_pos t) (s_buf t) else firstn (Z.to_nat 1) (skipn (s_pos t) (s_buf t)), set_pos t (s_pos t + List.length (if blen (skipn (s_pos t) (s_buf t)) <=? 1 then skipn (s_pos t) (s_buf t) else firstn (Z.to_nat 1) (skipn (s_pos t) (s_buf t))))) in if blen got <? 1 then (@Err bytes EOFError, s') else (Ok got, s')) = (Ok x, s1)).
    { intros t -> ->. set (r := skipn _ _). assert (R : blen r = 1) by (unfold r, blen in *; rewrite skipn_length; lia). destruct (Z.leb_spec (blen r) 1); [|lia]. destruct (Z.ltb_spec (blen r) 1); [lia|]. eauto. }
    destruct rt; cbv zeta; apply Y; reflexivity. }
  destruct X as [x [s1 ->]]. unfold ret. cbv beta iota. change (io_seek rt ?k s1) with (@Ok unit tt, snd (io_seek rt k s1)). unfold io_seek. eauto.
Qed.
Lemma rtp_bit_there c o : object_of T_RealTimeTransportProtocol (VObj c (l_attrs o)) -> exists h b, lookup "fixed_header" (l_attrs o) = Some h /\ getattr "padding" h = Some (VBool b).
Proof.
  intros O. destruct (header_object _ _ _ "fixed_header" _ O eq_refl eq_refl) as [c1 [h [L O1]]].
  destruct (stored_any _ _ _ O1 "padding" _ _ _ eq_refl eq_refl) as [v1 [L1 V1]]. apply once, flag in V1 as [b1 ->]. exists (VObj c1 h), b1. split; [exact L|exact L1].
Qed.
Lemma rtp_if_fine rt c o : object_of T_RealTimeTransportProtocol (VObj c (l_attrs o)) -> 1 <= blen (s_buf (l_io o)) -> forall e, fst (RealTimeTransportProtocol_len_padding_if_exists_property rt o) <> Err e.
Proof.
  intros O H e. destruct (rtp_bit_there c o O) as [h [b [L P]]]. unfold RealTimeTransportProtocol_len_padding_if_exists_property. destruct (lookup "_m_len_padding_if_exists" (l_attrs o)); [discriminate|].
  unfold bind at 1, stored. rewrite L. unfold ret at 1. unfold bind at 1, attribute. rewrite P. unfold ret at 1, bind at 1. cbn [truth]. unfold ret at 1.
  destruct b; [|discriminate]. destruct (last_octet rt (l_io o) H) as [n [s' E]]. unfold bind. rewrite E. discriminate.
Qed.
Lemma rtp_len_fine rt c o : object_of T_RealTimeTransportProtocol (VObj c (l_attrs o)) -> 1 <= blen (s_buf (l_io o)) -> forall e, fst (RealTimeTransportProtocol_len_padding_property rt o) <> Err e.
Proof.
  intros O H e. pose proof (rtp_if_fine rt c o O H) as F. destruct (rtp_bit_there c o O) as [h [b [L P]]]. unfold RealTimeTransportProtocol_len_padding_property. destruct (lookup "_m_len_padding" (l_attrs o)); [discriminate|].
  unfold bind at 1, stored. rewrite L. unfold ret at 1. unfold bind at 1, attribute. rewrite P. unfold ret at 1. cbn [truth]. unfold ret at 1.
  destruct b; [|discriminate]. destruct o as [a s]. cbn [l_attrs l_io] in *. destruct (RealTimeTransportProtocol_len_padding_if_exists_property rt _) as [[v|e'] o']; [discriminate|]. exfalso. now apply (F e').
Qed.

Ltac clause := unfold raises; split; [intros R;
    first [left; split; [cbn; tauto|split; [reflexivity|exact R]]
          |right; left; split; [reflexivity|split; [reflexivity|exact R]]
          |right; right; left; split; [reflexivity|split; [reflexivity|exact R]]
          |right; right; right; left; split; [reflexivity|split; [reflexivity|exact R]]
          |right; right; right; right; left; split; [reflexivity|split; [reflexivity|exact R]]
          |right; right; right; right; right; left; split; [reflexivity|split; [reflexivity|exact R]]
          |right; right; right; right; right; right; split; [reflexivity|split; [reflexivity|exact R]]]
  |intros R; repeat match type of R with _ \/ _ => destruct R as [R|R] end; destruct R as [R1 [R2 R3]]; first [discriminate R1|discriminate R2|exact R3|destruct R1 as [R1|[R1|R1]]; [discriminate R1|discriminate R1|destruct R1]]].
Ltac no_clause := unfold raises; intros R; repeat match type of R with _ \/ _ => destruct R as [R|R] end; destruct R as [R1 [R2 R3]]; first [discriminate R1|discriminate R2|destruct R1 as [R1|[R1|R1]]; [discriminate R1|discriminate R1|destruct R1]].
(** * The theorems *)
(** What the first access of a property raises, exactly; later ones (the value is cached) raise nothing.  For any object
    conforming to the format definition of its class (C58), whatever has been cached, on any non-empty file at any
    position. *)
Theorem C66_raises : forall (rt : runtime) (n x : string) (get : live -> res pyval * live), In (n, x, get) (properties rt) ->
  forall (T : typ) (c : string) (o : live), In (n, T) all_definitions -> object_of T (VObj c (l_attrs o)) -> 1 <= blen (s_buf (l_io o)) ->
  forall e, fst (get o) = Err e <-> lookup ("_m_" ++ x) (l_attrs o) = None /\ raises n x (l_attrs o) (s_buf (l_io o)) e.
Proof.
  intros rt n x get G T c [a s] HT O B e. cbn [l_attrs l_io] in *.
  assert (K : forall T', In (n, T') all_definitions -> object_of T' (VObj c a)) by (intros T' HT'; exact (attributes_of n T T' c _ HT HT' O)). clear T HT O.
  assert (nothing : (forall e', fst (get {| l_attrs := a; l_io := s |}) <> Err e') -> ~ (raises n x a (s_buf s) e) -> fst (get {| l_attrs := a; l_io := s |}) = Err e <-> lookup ("_m_" ++ x)%string a = None /\ raises n x a (s_buf s) e).
  { intros N R. split; [intros H; destruct (N _ H)|intros [_ H]; destruct (R H)]. }
  assert (some : forall P : Prop, fst (get {| l_attrs := a; l_io := s |}) = Err e <-> lookup ("_m_" ++ x)%string a = None /\ P -> (P <-> raises n x a (s_buf s) e) -> fst (get {| l_attrs := a; l_io := s |}) = Err e <-> lookup ("_m_" ++ x)%string a = None /\ raises n x a (s_buf s) e).
  { intros P A E. rewrite A. tauto. }
  unfold properties in G. cbn [In] in G.
  repeat (destruct G as [G|G]; [injection G as <- <- <-|]); [..|destruct G].
  - eapply some; [apply (letter_raises rt); reflexivity|]. clause.
  - eapply some; [apply (letter_raises rt); reflexivity|]. clause.
  - eapply some; [apply service_raises|]. clause.
  - eapply some; [apply (option_raises c s a); apply K; is_all|]. clause.
  - apply nothing; [|no_clause]. apply (rtp_if_fine rt c); [apply K; is_all|exact B].
  - apply nothing; [|no_clause]. apply (rtp_len_fine rt c); [apply K; is_all|exact B].
  - apply nothing; [|no_clause]. apply (fine_pdu_type c); apply K; is_all.
  - apply nothing; [|no_clause]. apply (fine_blocks c s a T_DmrDataHeader_DataHeaderShortRaw); [cbn; tauto|apply K; is_all].
  - apply nothing; [|no_clause]. apply (fine_blocks c s a T_DmrDataHeader_DataHeaderShortDefined); [cbn; tauto|apply K; is_all].
  - apply nothing; [|no_clause]. apply (fine_blocks c s a T_DmrDataHeader_DataHeaderShortStatusPrecoded); [cbn; tauto|apply K; is_all].
  - eapply some; [apply (gps_raises c); apply K; is_all|]. clause.
  - apply nothing; [|no_clause]. apply (fine_source c); apply K; is_all.
  - apply nothing; [|no_clause]. apply (fine_destination c); apply K; is_all.
  - apply nothing; [|no_clause]. apply (fine_color c); apply K; is_all.
  - apply nothing; [|no_clause]. apply (fine_wakeup c); apply K; is_all.
  - apply nothing; [|no_clause]. apply opcode_fine. exact B.
  - apply nothing; [|no_clause]. apply (fine_radio_id c); apply K; is_all.
  - apply nothing; [|no_clause]. apply (fine_radio_ip_id c); apply K; is_all.
  - apply nothing; [|no_clause]. apply (fine_radio_ip c); apply K; is_all.
  - eapply some; [apply (ack_header_raises c); apply K; is_all|]. clause.
  - eapply some; [apply (text_header_raises c); apply K; is_all|]. clause.
  - eapply some; [apply (data_raises rt c); apply K; is_all|]. clause.
Qed.

(** In particular for every object in an accepted packet, at any depth, and any later state [o] of it: more caches, the
    stream anywhere. *)
Theorem C66_accepted : forall (name : string) (p : runtime -> M pyval), In (name, p) all_parsers ->
  forall (rt : runtime) (b : bytes) (v : pyval), from_bytes (p rt) b = Ok v -> forall c a, inside (VObj c a) v ->
  exists n T, In (n, T) all_definitions /\ object_of T (VObj c a) /\
  forall (x : string) (get : live -> res pyval * live), In (n, x, get) (properties rt) ->
  forall o : live, public (l_attrs o) = public a -> 1 <= blen (s_buf (l_io o)) ->
  forall e, fst (get o) = Err e -> raises n x a (s_buf (l_io o)) e.
Proof.
  intros name p Hp rt b v H c a Hi. destruct (C58_objects_inside_conform name p Hp rt b v H c a Hi) as [n [T [HT O]]]. exists n, T. split; [exact HT|]. split; [exact O|].
  intros x get G o P B e X. assert (O' : object_of T (VObj c (l_attrs o))) by (inversion O; subst; constructor; rewrite P; assumption).
  apply (C66_raises rt n x get G T c o HT O' B) in X as [_ X].
  assert (L : forall y, is_cache y = false -> lookup y (l_attrs o) = lookup y a) by (intros y Y; rewrite <- (lookup_public y (l_attrs o)), <- (lookup_public y a) by exact Y; now rewrite P).
  unfold raises, lacks in *. rewrite !L in X by reflexivity. exact X.
Qed.

(** ** In a program *)
(** The classes are those of the library; the file has a first octet. *)
Definition constructs_known (a : action) : Prop := match a with Next k => In k all_parsers | _ => True end.
(** The objects of a program conform to their definitions, whatever the program does. *)
Definition conforming (h : handle) : Prop := exists T c, In (h_class h, T) all_definitions /\ object_of T (VObj c (h_attrs h)).
Lemma reads_object name p : In (name, p) all_parsers -> forall rt s v s', s_bits s = 0 -> s_left s = 0 -> p rt s = (Ok v, s') -> exists T, In (name, T) all_definitions /\ object_of T v.
Proof.
  intros Hp rt s v s' B0 B1 H. destruct (C54_from_bytes name p Hp) as [T [HT _]]. exists T. split; [apply in_or_app; now left|].
  apply In_nth_error in HT as [i HT]. pose proof HT as HT'. assert (P : nth_error all_parsers i = Some (name, p)).
  { pose proof (map_nth_error fst _ _ HT) as A. rewrite C54_every_parser_has_its_definition in A. cbn [fst] in A. destruct (nth_error all_parsers i) as [[n q]|] eqn:E.
    - pose proof (map_nth_error fst _ _ E) as A'. cbn [fst] in A'. assert (n = name) as -> by congruence. apply nth_error_In in E. now rewrite (nodup_unique _ nodup_parsers _ _ _ E Hp).
    - apply nth_error_None in E. rewrite nth_error_map in A. now rewrite (proj2 (nth_error_None _ _) E) in A. }
  apply nth_error_In in HT'. pose proof (C54_parsers_implement_their_definitions i name T p HT P rt s) as E. rewrite H in E.
  assert (W : wf s) by (split; rewrite ?B0, ?B1; cbn; lia). pose proof (typ_typed rt T [] s W) as G.
  unfold ksy_read, bind in E. destruct (run_typ rt T [] s) as [[[w f]|e] s1]; cbn in E; [|discriminate]. destruct G as [_ [_ G]]. assert (w = v) as <- by (unfold ret in E; cbv beta iota in E; cbn [fst] in E; injection E as E0 _; exact E0). exact (G (name_ok _ _ HT')).
Qed.
Lemma public_cache a m v : is_cache m = true -> public (a ++ [(m, v)]) = public a.
Proof. intros M. unfold public. rewrite filter_app. cbn [filter fst]. rewrite M. cbn [negb]. now rewrite app_nil_r. Qed.
Lemma memo_public x m o : public (l_attrs (snd (memo x m o))) = public (l_attrs o).
Proof. unfold memo. destruct (lookup _ _); [reflexivity|]. destruct (m _ _) as [[v|e] s]; cbn [snd l_attrs]; [apply public_cache, cache_name|reflexivity]. Qed.
Lemma rtp_if_public rt o : public (l_attrs (snd (RealTimeTransportProtocol_len_padding_if_exists_property rt o))) = public (l_attrs o).
Proof.
  unfold RealTimeTransportProtocol_len_padding_if_exists_property. destruct (lookup _ _); [reflexivity|]. match goal with |- context [match ?m with _ => _ end] => destruct m as [[[n|]|e] s] end; cbn [snd l_attrs]; [apply public_cache; reflexivity|reflexivity|reflexivity].
Qed.
Lemma rtp_len_public rt o : public (l_attrs (snd (RealTimeTransportProtocol_len_padding_property rt o))) = public (l_attrs o).
Proof.
  unfold RealTimeTransportProtocol_len_padding_property. destruct (lookup _ _); [reflexivity|]. match goal with |- context [match ?m with _ => _ end] => destruct m as [[b|e] s] end; [|reflexivity].
  destruct b; [|cbn [snd l_attrs]; apply public_cache; reflexivity]. pose proof (rtp_if_public rt {| l_attrs := l_attrs o; l_io := s |}) as P.
  destruct (RealTimeTransportProtocol_len_padding_if_exists_property rt _) as [[v|e] o']; cbn [snd l_attrs] in *; [rewrite public_cache by reflexivity|]; exact P.
Qed.
Lemma ask_public rt c x o : public (l_attrs (snd (ask rt c x o))) = public (l_attrs o).
Proof.
  destruct (ask_in rt c x) as [[g [G1 G2]]|P]; [|rewrite P; reflexivity]. rewrite G2. destruct (proj1 (Forall_forall _ _) (all_memo rt) _ G1) as [[m [M1 _]]|R]; cbn [fst snd] in *.
  - rewrite M1. apply memo_public.
  - subst c. unfold properties in G1. cbn [In] in G1. repeat (destruct G1 as [G1|G1]; [first [discriminate|injection G1 as <- <-]|]); [..|destruct G1]; [apply rtp_if_public|apply rtp_len_public].
Qed.
Lemma conforming_public h h' : h_class h' = h_class h -> public (h_attrs h') = public (h_attrs h) -> conforming h -> conforming h'.
Proof. intros E P [T [c [H O]]]. exists T, c. rewrite E. split; [exact H|]. inversion O; subst. constructor. now rewrite P. Qed.
Lemma set_nth_forall {A} (P : A -> Prop) l : forall k x, Forall P l -> P x -> Forall P (set_nth k x l).
Proof. induction l as [|y l IH]; intros k x F X; [destruct k; constructor|]. inversion F; subst. destruct k; cbn [set_nth]; constructor; auto. Qed.
Lemma act_conforms rt a w : constructs_known a -> Forall conforming (w_objects w) -> Forall conforming (w_objects (snd (act rt a w))) /\ w_file (snd (act rt a w)) = w_file w.
Proof.
  intros K F. destruct a as [[n p]|k x|m]; cbn [act].
  - unfold from_io. cbn [fst snd constructs_known] in *. destruct (p rt (view w 0 0)) as [[v|e] s] eqn:E; [|auto].
    destruct (reads_object n p K rt (view w 0 0) _ _ eq_refl eq_refl E) as [T [HT O]].
    destruct v; cbn [snd w_objects w_file]; split; auto. apply Forall_app. split; [exact F|]. constructor; [|constructor]. exists T. eexists. split; [exact HT|exact O].
  - destruct (nth_error (w_objects w) k) as [h|] eqn:N; [|auto]. pose proof (ask_public rt (h_class h) x {| l_attrs := h_attrs h; l_io := view w (h_bits h) (h_left h) |}) as P.
    destruct (ask rt (h_class h) x _) as [r o]. cbn [snd w_objects w_file l_attrs] in *. split; [|reflexivity]. apply set_nth_forall; [exact F|].
    apply (conforming_public h); [reflexivity|exact P|exact (proj1 (Forall_forall _ _) F h (nth_error_In _ _ N))].
  - auto.
Qed.
Lemma session_conforms rt acts : forall w, Forall constructs_known acts -> Forall conforming (w_objects w) ->
  Forall conforming (w_objects (snd (session rt acts w))) /\ w_file (snd (session rt acts w)) = w_file w.
Proof.
  induction acts as [|a acts IH]; intros w K F; [auto|]. inversion K as [|? ? K1 K2]; subst. cbn [session]. destruct (act_conforms rt a w K1 F) as [F' E']. destruct (act rt a w) as [r w1]. cbn [snd] in *.
  specialize (IH w1 K2 F'). destruct (session rt acts w1) as [rs w2]. cbn [snd] in *. destruct IH as [F2 E2]. split; [exact F2|congruence].
Qed.

(** Any program on one open file - objects of any classes made with [from_io], anything asked of them in any order, the
    file moved anywhere in between: an access to [x] of an object that fails fails with AttributeError because the class
    has no property and the object no attribute [x], or as the property does. *)
Theorem C66_program : forall (rt : runtime) (contents : bytes) (acts : list action), 1 <= blen contents -> Forall constructs_known acts ->
  forall (k : nat) (x : string) (h : handle) (e : exn) (w' : world), let w := snd (session rt acts (opened contents)) in
  nth_error (w_objects w) k = Some h -> act rt (Ask k x) w = (Some (Err e), w') ->
  raises (h_class h) x (h_attrs h) contents e \/ (lacks x (h_attrs h) /\ ~ In (h_class h, x) (map fst (properties rt)) /\ e = AttributeError x).
Proof.
  intros rt contents acts B K k x h e w' w N A. destruct (session_conforms rt acts (opened contents) K (Forall_nil _)) as [F E]. fold w in F, E. cbn [opened w_file] in E.
  destruct (proj1 (Forall_forall _ _) F h (nth_error_In _ _ N)) as [T [c [HT O]]]. cbn [act] in A. rewrite N in A.
  set (o := {| l_attrs := h_attrs h; l_io := view w (h_bits h) (h_left h) |}) in A. destruct (ask rt (h_class h) x o) as [r o'] eqn:Q. assert (r = Err e) by congruence. subst r.
  unfold ask in Q. destruct (find _ (properties rt)) as [g|] eqn:G.
  - left. apply find_some in G as [G1 G2]. apply andb_prop in G2 as [G2 G3]. apply String.eqb_eq in G2, G3. destruct g as [[n y] g]. cbn [fst snd] in *. subst n y.
    pose proof (proj1 (C66_raises rt _ x g G1 T c o HT O ltac:(cbn [o l_io view s_buf]; rewrite E; exact B) e)) as X. rewrite Q in X. destruct (X eq_refl) as [_ R]. cbn [o l_attrs l_io view s_buf] in R. rewrite E in R. exact R.
  - right. cbn [o l_attrs] in Q. unfold lacks. destruct (lookup x (h_attrs h)) as [v|]; [discriminate|]. split; [reflexivity|]. split; [|congruence].
    intros H. apply in_map_iff in H as [g [G1 G2]]. pose proof (find_none _ _ G g G2) as G3. cbv beta in G3. destruct g as [ny g]. cbn [fst] in *. subst ny. cbn [fst snd] in G3. now rewrite !String.eqb_refl in G3.
Qed.

(** * Examples *)
(** A text message header without the second octet: its [sequence_number] raises (the .ksy has no condition there), and
    a gpsdata with a status that is not ASCII. *)
Example C66_case : exists o,
  open_object (p_MotTextMessageProtocol_TextMessageHeaderSequenceAndEncoding) (B [0x03; 0x80]) = Ok o /\
  fst (MotTextMessageProtocol_TextMessageHeader_sequence_number o) = Err (AttributeError "sequence_number_msb_bits") /\
  raises "MotTextMessageProtocol_TextMessageHeaderSequenceAndEncoding" "sequence_number" (l_attrs o) (s_buf (l_io o)) (AttributeError "sequence_number_msb_bits").
Proof. eexists. split; [vm_compute; reflexivity|]. split; [reflexivity|]. unfold raises, lacks. do 4 right. left. repeat (split; [reflexivity|]). reflexivity. Qed.
Example C66_gps : exists o, open_object (p_Gpsdata V010) (B (0xC1 :: List.repeat 0x30 39)) = Ok o /\
  fst (Gpsdata_gps_available o) = Err (UnicodeDecodeError "ascii") /\ raises "Gpsdata" "gps_available" (l_attrs o) (s_buf (l_io o)) (UnicodeDecodeError "ascii").
Proof.
  eexists. split; [vm_compute; reflexivity|]. split; [vm_compute; reflexivity|]. unfold raises. do 3 right. left. split; [reflexivity|]. split; [reflexivity|]. eexists. split; [reflexivity|]. split; [vm_compute; discriminate|reflexivity].
Qed.
(** A program: a data header, then its body from a file of two octets. *)
Example C66_program_case : exists acts h w', Forall constructs_known acts /\ let w := snd (session V011 acts (opened (B [2; 0]))) in
  nth_error (w_objects w) 0 = Some h /\ act V011 (Ask 0 "data") w = (Some (Err EOFError), w') /\ raises (h_class h) "data" (h_attrs h) (B [2; 0]) EOFError.
Proof.
  exists [Next ("DmrDataHeader", fun _ => p_DmrDataHeader); SeekFile 1]. do 2 eexists. split; [|split; [vm_compute; reflexivity|split; [vm_compute; reflexivity|]]].
  - constructor; [cbn [constructs_known]; in_list|constructor; [exact I|constructor]].
  - unfold raises. do 2 right. left. repeat split.
Qed.

Definition C66_all := (C66_raises, C66_accepted, C66_program).
Print Assumptions C66_all.
