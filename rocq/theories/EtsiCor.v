(** Readable consequences of the ETSI decoding theorems. *)
From Verif Require Import PyBase Runtime Codec Enums Getters Spec RuntimeProofs EnumProofs EtsiModel EtsiSpec EtsiProofs EtsiHeader.
From Coq Require Import ZifyBool.
Ltac Zify.zify_post_hook ::= Z.div_mod_to_equations.
Open Scope string_scope.
Open Scope list_scope.
Open Scope Z_scope.

Lemma fields_eof b k fs f : In f fs -> (forall K w g, f_kind K = KSub w g -> ~ In K fs) ->
  fits b k (f_off f + kwidth (f_kind f)) = false -> exists e, fields b k fs = Err e.
Proof.
  intros Hin Hns Hf. induction fs as [|g fs IH]; [destruct Hin|]. cbn [fields].
  destruct (decode b k (f_off g) (f_kind g)) as [v|e] eqn:E; [|eauto].
  destruct Hin as [->|Hin].
  - exfalso. unfold decode in E. destruct (f_kind f) eqn:Ek; try (rewrite Hf in E; discriminate).
    eapply (Hns f); [exact Ek|left; reflexivity].
  - destruct IH as [e He]; [assumption| |rewrite He; eauto].
    intros K w h HK Hi. eapply Hns; [exact HK|right; exact Hi].
Qed.

(** Tables of plain fields: success is exactly being long enough, failure is EOFError. *)
Lemma plain_iff b k n fs : 0 <= k -> 0 < n -> forallb (plain n) fs = true -> fs_end fs 0 = n -> tiles fs 0 = true ->
  (8 * k + n <= 8 * blen b /\ exists a, fields b k fs = Ok a) \/ (8 * blen b < 8 * k + n /\ fields b k fs = Err EOFError).
Proof.
  intros Hk Hn Hp He Ht.
  destruct (Z_le_gt_dec (8 * k + n) (8 * blen b)) as [H|H].
  - left. split; [assumption|]. eapply plain_ok; eassumption.
  - right. split; [lia|].
    assert (G : forall fs c, forallb (plain n) fs = true -> tiles fs c = true -> fs_end fs c = n -> c < n -> fields b k fs = Err EOFError).
    { clear fs Hp He Ht. induction fs as [|f fs IH]; intros c Hp Ht He Hc; [cbn in He; lia|].
      cbn [forallb] in Hp. apply andb_true_iff in Hp as [H1 H2].
      cbn [tiles] in Ht. apply andb_true_iff in Ht as [Hoff Ht]. apply Z.eqb_eq in Hoff. cbn [fs_end] in He. rewrite Hoff in He.
      cbn [fields].
      destruct (Z_lt_le_dec (c + kwidth (f_kind f)) n) as [Hlt|Hge].
      - rewrite (IH _ H2 Ht He Hlt). unfold decode, plain in *.
        destruct (f_kind f); try discriminate H1; destruct (fits _ _ _); reflexivity.
      - assert (Hff : fits b k (f_off f + kwidth (f_kind f)) = false).
        { apply fits_niff. rewrite Hoff. lia. }
        unfold decode, plain in *. destruct (f_kind f); try discriminate H1; rewrite Hff; reflexivity. }
    eapply G; eauto.
Qed.

Lemma object_plain_iff cls b k n fs : 0 <= k -> 0 < n -> forallb (plain n) fs = true -> fs_end fs 0 = n -> tiles fs 0 = true ->
  (8 * k + n <= 8 * blen b /\ exists a, object cls fs b k = Ok (VObj cls a)) \/ (8 * blen b < 8 * k + n /\ object cls fs b k = Err EOFError).
Proof.
  intros Hk Hn Hp He Ht. unfold object. destruct (plain_iff b k n fs Hk Hn Hp He Ht) as [[H4 [a ->]]|[H4 ->]]; [left|right]; (split; [assumption|]); [eexists|]; reflexivity.
Qed.

Lemma csbk_header_ok b : 2 <= blen b -> fields b 0 L_csbk_header = Ok
   [("last_block", VBool (bit b 0)); ("protect_flag", VBool (bit b 1));
    ("csbk_opcode", resolve_enum DmrCsbk_CsbkoTypes (ubits b 2 6)); ("feature_set_id", VInt (ubits b 8 8))].
Proof.
  intros. unfold L_csbk_header. spec_cbn.
  repeat match goal with |- context [fits b 0 ?c] => rewrite (proj2 (fits_iff b 0 c)) by lia end. reflexivity.
Qed.

Lemma csbk_unknown b : 2 <= blen b -> select (ubits b 2 6) csbk_bodies = None ->
  csbk_spec b = Ok (VObj "DmrCsbk"
    [("last_block", VBool (bit b 0)); ("protect_flag", VBool (bit b 1));
     ("csbk_opcode", resolve_enum DmrCsbk_CsbkoTypes (ubits b 2 6)); ("feature_set_id", VInt (ubits b 8 8))]).
Proof. intros H Hs. unfold csbk_spec. rewrite csbk_header_ok by assumption. rewrite Hs. reflexivity. Qed.

Lemma service_options_iff b k : 0 <= k ->
  (8 * k + 8 <= 8 * blen b /\ exists a, object "DmrCsbk.ServiceOptions" L_DmrCsbk_ServiceOptions b k = Ok (VObj "DmrCsbk.ServiceOptions" a)) \/
  (8 * blen b < 8 * k + 8 /\ object "DmrCsbk.ServiceOptions" L_DmrCsbk_ServiceOptions b k = Err EOFError).
Proof. intros. apply object_plain_iff; try reflexivity; lia. Qed.

Lemma csbk_total b : select (ubits b 2 6) csbk_bodies <> None ->
  (10 <= blen b /\ exists v, csbk_spec b = Ok v) \/ (blen b < 10 /\ csbk_spec b = Err EOFError).
Proof.
  intros Hs. unfold csbk_spec.
  destruct (plain_iff b 0 16 L_csbk_header) as [[H1 [a ->]]|[H1 ->]]; try reflexivity; try lia; [|right; split; [lia|reflexivity]].
  cbn [rbind].
  unfold csbk_bodies, select in *.
  repeat match goal with |- context [if ?z =? ?c then _ else _] => destruct (z =? c) end; try (exfalso; congruence).
  all: cbn [optional].
  3,4,5,6: match goal with |- context [object ?cls ?fs ?b 2] => let a2 := fresh in let H2 := fresh in
      destruct (object_plain_iff cls b 2 64 fs ltac:(lia) ltac:(lia) eq_refl eq_refl eq_refl) as [[H2 [a2 ->]]|[H2 ->]] end;
      [left|right]; (split; [lia|]); try reflexivity; eexists; reflexivity.
  all: unfold object, L_DmrCsbk_UnitToUnitVoiceRequestData, L_DmrCsbk_UnitToUnitVoiceAnswerData;
    cbn [fields f_off f_kind decode]; change (2 + 0 / 8) with 2;
    match goal with |- context [object _ L_DmrCsbk_ServiceOptions ?b 2] => let a2 := fresh in let H2 := fresh in destruct (service_options_iff b 2 ltac:(lia)) as [[H2 [a2 ->]]|[H2 ->]] end;
    [|right; split; [lia|reflexivity]].
  all: cbn [kwidth nwidth].
  all: match goal with |- context [10 <= ?l] => let H3 := fresh in destruct (Z_le_gt_dec 10 l) as [H3|H3] end; [left|right]; (split; [lia|]).
  all: repeat match goal with |- context [fits ?b 2 ?c] =>
     first [rewrite (proj2 (fits_iff b 2 c)) by lia
           |let E := fresh in destruct (fits b 2 c) eqn:E; [apply fits_iff in E|apply fits_niff in E]; cbn; try (exfalso; lia)] end.
  all: cbn; try reflexivity; try (eexists; reflexivity).
Qed.

(** * Full link control *)
Lemma flc_body_iff b f : select (ubits b 2 6) flc_bodies = Some f ->
  (9 <= blen b /\ exists v, f b 2 = Ok v) \/ (blen b < 9 /\ f b 2 = Err EOFError).
Proof.
  unfold flc_bodies, select. intros Hs.
  repeat match goal with H : context [if ?z =? ?c then _ else _] |- _ => destruct (z =? c) end; try discriminate.
  all: match goal with H : Some _ = Some _ |- _ => injection H as <- end.
  all: match goal with |- context [object ?cls ?fs ?b 2] => let a2 := fresh in let H2 := fresh in
      destruct (object_plain_iff cls b 2 56 fs ltac:(lia) ltac:(lia) eq_refl eq_refl eq_refl) as [[H2 [a2 ->]]|[H2 ->]] end;
      [left|right]; (split; [lia|]); try reflexivity; eexists; reflexivity.
Qed.

Lemma flc_header_ok b : 2 <= blen b -> fields b 0 L_flc_header = Ok
   [("protect_flag", VBool (bit b 0)); ("reserved", VBool (bit b 1));
    ("full_link_control_opcode", resolve_enum FullLinkControl_Flcos (ubits b 2 6));
    ("feature_set_id", resolve_enum FullLinkControl_FeatureSetIds (ubits b 8 8))].
Proof.
  intros. unfold L_flc_header. spec_cbn.
  repeat match goal with |- context [fits b 0 ?c] => rewrite (proj2 (fits_iff b 0 c)) by lia end. reflexivity.
Qed.

(** What a full link control with a known FLCO looks like, by its length. *)
Definition flc_outcome (b : bytes) (r : res pyval) : Prop :=
  (blen b <= 9 -> r = Err EOFError) /\
  (9 < blen b -> exists v d, r = Ok v /\ getattr "specific_data" v = Some d) /\
  (blen b = 10 -> forall v, r = Ok v -> getattr "cs5_checksum" v = Some (VInt (ubits b 72 5)) /\ getattr "crc_checksum" v = None) /\
  (blen b = 11 -> forall v, r = Ok v -> getattr "cs5_checksum" v = None /\ getattr "crc_checksum" v = None) /\
  (12 <= blen b -> forall v, r = Ok v -> getattr "cs5_checksum" v = None /\ getattr "crc_checksum" v = Some (VBytes (slice b 9 3))).

Lemma flc_known b : select (ubits b 2 6) flc_bodies <> None -> flc_outcome b (flc_spec b).
Proof.
  intros Hs. unfold flc_spec.
  destruct (select (ubits b 2 6) flc_bodies) as [f|] eqn:Es; [|congruence]. clear Hs.
  pose proof (flc_body_iff b f Es) as Hb.
  destruct (Z_le_gt_dec 2 (blen b)) as [H2|H2].
  2:{ destruct (plain_iff b 0 16 L_flc_header) as [[H1 _]|[H1 ->]]; try reflexivity; try lia.
      unfold flc_outcome. cbn. repeat split; intros; try lia; try discriminate. }
  rewrite flc_header_ok by assumption. cbn [rbind optional].
  destruct Hb as [[H9 [v Hv]]|[H9 Hv]]; rewrite Hv; cbn [rbind].
  2:{ unfold flc_outcome. repeat split; intros; try lia; try discriminate; reflexivity. }
  cbv zeta. change (9 + 3) with 12.
  spec_cbn.
  destruct (Z.leb_spec 12 (blen b)); destruct (Z.leb_spec (blen b) 10); try lia; cbn [rbind]; cbv iota.
  - unfold flc_outcome. split; [lia|]. split; [intros _; eexists; eexists; split; [reflexivity|reflexivity]|].
    repeat split; intros; try lia; match goal with H : Ok _ = Ok _ |- _ => injection H as <- end; reflexivity.
  - destruct (fits b 9 5) eqn:Ef; [apply fits_iff in Ef|].
    + cbn [rbind]. unfold flc_outcome. split; [lia|]. split; [intros _; eexists; eexists; split; [reflexivity|reflexivity]|].
      repeat split; intros; try lia; match goal with H : Ok _ = Ok _ |- _ => injection H as <- end; reflexivity.
    + assert (blen b = 9). { apply fits_niff in Ef. lia. }
      unfold flc_outcome. cbn. repeat split; intros; try lia; try discriminate.
  - unfold flc_outcome. split; [lia|]. split; [intros _; eexists; eexists; split; [reflexivity|reflexivity]|].
    repeat split; intros; try lia; match goal with H : Ok _ = Ok _ |- _ => injection H as <- end; reflexivity.
Qed.

(** With an unknown FLCO there is no content, so the checksum position shifts to octet 2. *)
Lemma flc_unknown b : select (ubits b 2 6) flc_bodies = None -> 2 <= blen b ->
  match flc_spec b with
  | Ok v => getattr "specific_data" v = None /\
            getattr "crc_checksum" v = (if 5 <=? blen b then Some (VBytes (slice b 2 3)) else None) /\
            getattr "cs5_checksum" v = (if blen b <=? 10 then Some (VInt (ubits b (if 5 <=? blen b then 40 else 16) 5)) else None)
  | Err e => e = EOFError /\ (blen b = 2 \/ blen b = 5)
  end.
Proof.
  intros Hs H. unfold flc_spec. rewrite Hs, flc_header_ok by assumption. cbn [rbind optional]. cbv zeta. change (2 + 3) with 5. spec_cbn.
  destruct (Z.leb_spec 5 (blen b)); destruct (Z.leb_spec (blen b) 10); try lia; cbn [rbind]; cbv iota.
  - destruct (fits b 5 5) eqn:Ef; cbn; [auto|]. apply fits_niff in Ef. split; [reflexivity|lia].
  - cbn. auto.
  - destruct (fits b 2 5) eqn:Ef; cbn; [auto|]. apply fits_niff in Ef. split; [reflexivity|lia].
Qed.

(** * Data header *)
Lemma header_data rt b o : open_object p_DmrDataHeader b = Ok o -> fst (DmrDataHeader_data rt o) = data_header_spec b.
Proof.
  intros H. apply header_open in H. pose proof (header_step rt b o H) as Hs.
  destruct (DmrDataHeader_data rt o) as [r o']. exact (proj1 Hs).
Qed.

Lemma header_opens b : (1 <= blen b /\ exists o, open_object p_DmrDataHeader b = Ok o) \/ (blen b = 0 /\ open_object p_DmrDataHeader b = Err EOFError).
Proof.
  pose proof (from_bytes_obj "DmrDataHeader" [("skip4", vbits 4); ("data_packet_format", venum DmrDataHeader_DataPacketFormats (read_bits 4))] L_DmrDataHeader ltac:(seqok) b) as Hf.
  unfold open_object. change (obj "DmrDataHeader" [("skip4", vbits 4); ("data_packet_format", venum DmrDataHeader_DataPacketFormats (read_bits 4))]) with p_DmrDataHeader in Hf.
  unfold from_bytes in Hf.
  destruct (object_plain_iff "DmrDataHeader" b 0 8 L_DmrDataHeader) as [[H1 [a Ha]]|[H1 Ha]]; try reflexivity; try lia; rewrite Ha in Hf.
  - left. split; [lia|]. destruct (p_DmrDataHeader (stream_of b)) as [r s]. cbn [fst] in Hf. subst r. eexists; reflexivity.
  - right. split; [unfold blen in *; lia|]. destruct (p_DmrDataHeader (stream_of b)) as [r s]. cbn [fst] in Hf. subst r. reflexivity.
Qed.

(** [appended_blocks] of the three short-data layouts *)
Definition has_blocks (p : M pyval) : Prop := forall b o, open_object p b = Ok o ->
  lookup "_m_appended_blocks" (l_attrs o) = None /\
  lookup "appended_blocks_msb" (l_attrs o) = Some (VInt (ubits b 2 2)) /\
  lookup "appended_blocks_lsb" (l_attrs o) = Some (VInt (ubits b 12 4)).

Lemma has_blocks_obj cls l fs : seq_ok 0 l fs ->
  (forall b a, fields b 0 fs = Ok a -> lookup "_m_appended_blocks" a = None /\
     lookup "appended_blocks_msb" a = Some (VInt (ubits b 2 2)) /\ lookup "appended_blocks_lsb" a = Some (VInt (ubits b 12 4))) ->
  has_blocks (obj cls l).
Proof.
  intros Hs Hf b o Ho. unfold open_object in Ho.
  pose proof (from_bytes_obj cls l fs Hs b) as Hb. unfold from_bytes, object in Hb.
  destruct (obj cls l (stream_of b)) as [r s]. cbn [fst] in Hb. subst r.
  destruct (fields b 0 fs) as [a|e] eqn:Ea; [|discriminate]. cbn [rmap] in Ho. injection Ho as <-. cbn [l_attrs]. auto.
Qed.

Ltac blocks_tac fs := apply (has_blocks_obj _ _ fs); [seqok|]; let b := fresh in let a := fresh in let H := fresh in intros b a;
  unfold L_DmrDataHeader_DataHeaderShortRaw, L_DmrDataHeader_DataHeaderShortDefined, L_DmrDataHeader_DataHeaderShortStatusPrecoded; spec_cbn;
  repeat match goal with |- context [if fits b ?k ?c then _ else _] => destruct (fits b k c); [|discriminate] end;
  intros H; injection H as <-; cbn; auto.
Lemma blocks_raw rt : has_blocks (p_DmrDataHeader_DataHeaderShortRaw rt). Proof. blocks_tac L_DmrDataHeader_DataHeaderShortRaw. Qed.
Lemma blocks_defined rt : has_blocks (p_DmrDataHeader_DataHeaderShortDefined rt). Proof. blocks_tac L_DmrDataHeader_DataHeaderShortDefined. Qed.
Lemma blocks_status rt : has_blocks (p_DmrDataHeader_DataHeaderShortStatusPrecoded rt). Proof. blocks_tac L_DmrDataHeader_DataHeaderShortStatusPrecoded. Qed.

Definition blocks_value (b : bytes) : Z := 16 * ubits b 2 2 + ubits b 12 4.
Lemma blocks_range b : 0 <= blocks_value b < 64.
Proof. unfold blocks_value. pose proof (ubits_bound b 2 2). pose proof (ubits_bound b 12 4). change (2^2) with 4 in *. change (2^4) with 16 in *. lia. Qed.

Lemma blocks_access b o : lookup "_m_appended_blocks" (l_attrs o) = None \/ lookup "_m_appended_blocks" (l_attrs o) = Some (VInt (blocks_value b)) ->
  lookup "appended_blocks_msb" (l_attrs o) = Some (VInt (ubits b 2 2)) ->
  lookup "appended_blocks_lsb" (l_attrs o) = Some (VInt (ubits b 12 4)) ->
  let '(r, o') := appended_blocks o in
  r = Ok (VInt (blocks_value b)) /\ l_io o' = l_io o /\
  lookup "_m_appended_blocks" (l_attrs o') = Some (VInt (blocks_value b)) /\
  lookup "appended_blocks_msb" (l_attrs o') = Some (VInt (ubits b 2 2)) /\
  lookup "appended_blocks_lsb" (l_attrs o') = Some (VInt (ubits b 12 4)).
Proof.
  intros Hm H1 H2. unfold appended_blocks, memo. cbn [append].
  destruct Hm as [Hm|Hm]; rewrite Hm.
  - unfold stored_int, stored. rewrite H1, H2. cbn [bind ret]. unfold bind, ret. cbn [l_io l_attrs].
    assert (E : Z.shiftl (ubits b 2 2) 4 + ubits b 12 4 = blocks_value b).
    { unfold blocks_value. rewrite Z.shiftl_mul_pow2 by lia. change (2^4) with 16. lia. }
    rewrite E. repeat split; rewrite ?lookup_app, ?H1, ?H2, ?Hm; reflexivity.
  - repeat split; assumption.
Qed.

Lemma blocks_history rt b ops o :
  (lookup "_m_appended_blocks" (l_attrs o) = None \/ lookup "_m_appended_blocks" (l_attrs o) = Some (VInt (blocks_value b))) ->
  lookup "appended_blocks_msb" (l_attrs o) = Some (VInt (ubits b 2 2)) ->
  lookup "appended_blocks_lsb" (l_attrs o) = Some (VInt (ubits b 12 4)) ->
  Forall (fun ob => ob_result ob = Ok (VInt (blocks_value b)) /\ ob_after ob = ob_before ob) (history rt (fun _ => appended_blocks) ops o).
Proof.
  revert o. induction ops as [|[x|n] ops IH]; intros o Hm H1 H2; cbn [history]; [constructor| |].
  - pose proof (blocks_access b o Hm H1 H2) as Ha. destruct (appended_blocks o) as [r o'].
    destruct Ha as [Hr [Hio [Hm' [H1' H2']]]]. constructor; [cbn [ob_result ob_after ob_before]; rewrite Hio; auto|].
    apply IH; auto.
  - apply IH; assumption.
Qed.

Lemma appended_blocks_all rt p b o ops :
  In p [p_DmrDataHeader_DataHeaderShortRaw rt; p_DmrDataHeader_DataHeaderShortDefined rt; p_DmrDataHeader_DataHeaderShortStatusPrecoded rt] ->
  open_object p b = Ok o ->
  let n := 16 * ubits b 2 2 + ubits b 12 4 in
  0 <= n < 64 /\
  Forall (fun ob => ob_result ob = Ok (VInt n) /\ ob_after ob = ob_before ob) (history rt (fun _ => appended_blocks) ops o).
Proof.
  intros Hp Ho n. split; [apply blocks_range|].
  assert (Hb : has_blocks p).
  { destruct Hp as [<-|[<-|[<-|[]]]]; [apply blocks_raw|apply blocks_defined|apply blocks_status]. }
  destruct (Hb b o Ho) as [H1 [H2 H3]]. apply blocks_history; auto.
Qed.

Lemma header_short rt b o ops : open_object p_DmrDataHeader b = Ok o -> blen b < 12 ->
  Forall (fun ob => ob_result ob = Err EOFError) (history rt (fun _ => DmrDataHeader_data rt) ops o).
Proof.
  intros Ho Hl. eapply Forall_impl; [|exact (header_history rt b ops o (header_open b o Ho))].
  intros ob [-> _]. unfold data_header_spec. destruct (Z.ltb_spec (blen b) 12); [reflexivity|lia].
Qed.

(** * Dispatch tables and lists of keys *)
Lemma select_notin {A} z (t : list (Z * A)) : ~ In z (map fst t) -> select z t = None.
Proof.
  induction t as [|[c x] t IH]; cbn; [reflexivity|]. intros H. destruct (Z.eqb_spec z c); [exfalso; apply H; auto|]. auto.
Qed.
Lemma select_in {A} z (t : list (Z * A)) : In z (map fst t) -> select z t <> None.
Proof.
  induction t as [|[c x] t IH]; cbn; [tauto|]. intros [->|H]; [rewrite Z.eqb_refl; discriminate|]. destruct (z =? c); [discriminate|auto].
Qed.

(** * Compressed UDP header *)
Lemma skipn_add {A} (l : list A) : forall p q, skipn p (skipn q l) = skipn (q + p) l.
Proof.
  induction l as [|x l IH]; intros p q; [destruct q, p; reflexivity|]. destruct q; [reflexivity|]. cbn [skipn Nat.add]. apply IH.
Qed.

Lemma split_at (b : bytes) p q : 0 <= p <= q -> rest b p = slice b p (q - p) ++ rest b q.
Proof.
  Transparent slice. unfold rest, slice. Opaque slice. intros H.
  rewrite <- (firstn_skipn (Z.to_nat (q - p)) (skipn (Z.to_nat p) b)) at 1.
  f_equal. rewrite skipn_add. f_equal. lia.
Qed.

Lemma udp_partition rt b v : from_bytes (p_DmrIpUdp_UdpIpv4CompressedHeader rt) b = Ok v ->
  let src := match getattr "udp_source_port" v with Some (VBytes l) => l | _ => [] end in
  let dst := match getattr "udp_destination_port" v with Some (VBytes l) => l | _ => [] end in
  exists ident data, getattr "ipv4_identification" v = Some (VBytes ident) /\ getattr "user_data" v = Some (VBytes data) /\
    b = ident ++ slice b 2 3 ++ src ++ dst ++ data /\
    (getattr "udp_source_port" v <> None <-> ubits b 25 7 = 0) /\
    (getattr "udp_destination_port" v <> None <-> ubits b 33 7 = 0).
Proof.
  rewrite udp_ok. unfold udp_spec, L_udp_header. spec_cbn.
  repeat match goal with |- context [if fits b 0 ?c then _ else _] => destruct (fits b 0 c); [|intros; discriminate] end.
  cbn [rbind]. cbv zeta.
  assert (Hb : b = slice b 0 2 ++ slice b 2 3 ++ rest b 5).
  { pose proof (split_at b 2 5 ltac:(lia)) as H5. pose proof (split_at b 0 2 ltac:(lia)) as H2. cbn [Z.sub Z.opp Z.add Z.pos_sub Pos.pred_double Z.succ_double Z.pred_double Z.double] in H5, H2. rewrite H5 in H2. exact H2. }
  destruct (Z.eqb_spec (ubits b 25 7) 0) as [E1|E1]; destruct (Z.eqb_spec (ubits b 33 7) 0) as [E2|E2].
  all: cbv iota; repeat match goal with |- context [if fits ?b ?k ?c then _ else _] => destruct (fits b k c); [|intros; discriminate] end.
  all: cbn [rbind]; let H := fresh in intros H; match type of H with Ok ?x = Ok ?y => assert (y = x) by congruence; subst v; clear H end.
  all: do 2 eexists; (split; [reflexivity|]); (split; [reflexivity|]).
  all: cbn [getattr lookup app String.eqb Ascii.eqb Bool.eqb]; norm_lits; split; [|split; split; intros ?; congruence].
  all: refine (eq_trans Hb _); do 2 f_equal; cbn [app].
  - pose proof (split_at b 5 7 ltac:(lia)) as H5. pose proof (split_at b 7 9 ltac:(lia)) as H7. rewrite H7 in H5. exact H5.
  - exact (split_at b 5 7 ltac:(lia)).
  - exact (split_at b 5 7 ltac:(lia)).
Qed.
