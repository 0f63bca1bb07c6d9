(** C52 (checksums are reported, not enforced) and C53 (fields are independent of each other). *)
From Verif Require Import PyBase Runtime Codec CodecSpec Enums EnumProofs Getters Spec DecSpec BitSpec RuntimeProofs TilesProofs DecProofs DecAlgebra
  EtsiModel EtsiSpec EtsiProofs EtsiHeader EtsiCor PropEtsi Layouts FieldLocal HyteraModel HyteraSpec HyteraRuns HyteraProofs HyteraProofs2 HyteraProofs3 HyteraCor HyteraCor2 HyteraCor3 PropHytera2.
From Coq Require Import ZifyBool.
Ltac Zify.zify_post_hook ::= Z.div_mod_to_equations.
Open Scope string_scope.
Open Scope list_scope.
Open Scope Z_scope.

(** Two outcomes are the same, except that the attribute [n] is [w] in one and [w'] in the other. *)
Definition same_except (n : string) (w w' : pyval) (r r' : res pyval) : Prop :=
  (exists e, r = Err e /\ r' = Err e) \/
  (exists cls pre post, r = Ok (VObj cls (pre ++ (n, w) :: post)) /\ r' = Ok (VObj cls (pre ++ (n, w') :: post))).

(** * C53: in a message of fixed layout, changing the bits of one field changes that attribute only *)

(** [differ_only_in o w b b'] (FieldLocal.v): same length, same bits outside [o, o+w).  A field is plain if
    it holds a number, a flag, an enum member or bytes; the others (fixed content, text, nested objects)
    can be rejected, or consist of fields of their own. *)
Definition plain (K : kind) : bool := match K with KNum _ | KFlag | KEnum _ _ | KBytes _ => true | _ => false end.

Theorem C53_only_that_attribute_changes : forall rt (l : layout), In l (fixed_layouts rt) -> forall f, In f (ly_table l) -> plain (f_kind f) = true ->
  forall b b' : bytes, differ_only_in (f_off f) (kwidth (f_kind f)) b b' ->
  exists w w', same_except (f_name f) w w' (from_bytes (ly_parser l) b) (from_bytes (ly_parser l) b').
Proof.
  intros rt l Hl f Hf Hp b b' Hd. pose proof (proj1 (Forall_forall _ _) (layouts_ok rt) l Hl) as [E [Ht [Ho [Hw _]]]].
  pose proof (proj1 (Forall_forall _ _) (layouts_bitwise rt) l Hl) as Hb. cbv beta in Hb. rewrite !E. unfold object.
  destruct (in_split _ _ Hf) as [fs [gs Es]]. rewrite Es in *.
  destruct (fields_around fs f gs b b' 0 Hb Ht Ho ltac:(lia) Hd) as [F1 F2].
  rewrite !fields_app. cbn [fields]. rewrite <- F1, <- F2. destruct Hd as [Hbl _].
  destruct (fields b 0 fs) as [a|e]; [|exists VNone, VNone; left; exists e; auto].
  assert (D : (exists e, decode b 0 (f_off f) (f_kind f) = Err e /\ decode b' 0 (f_off f) (f_kind f) = Err e) \/
              (exists w w', decode b 0 (f_off f) (f_kind f) = Ok w /\ decode b' 0 (f_off f) (f_kind f) = Ok w')).
  { unfold decode. destruct (f_kind f); try discriminate Hp; rewrite (same_fits b b') by exact Hbl; destruct (fits b' 0 _); eauto 6. }
  destruct D as [[e [-> ->]]|[w [w' [-> ->]]]]; [exists VNone, VNone; left; exists e; auto|].
  exists w, w'. destruct (fields b 0 gs) as [a'|e]; [|left; exists e; auto].
  right. exists (ly_class l), a, a'. auto.
Qed.

(** For a field of any kind: if both packets parse, the results differ in that attribute only. *)
Theorem C53_both_parse : forall rt (l : layout), In l (fixed_layouts rt) -> forall f, In f (ly_table l) ->
  forall (b b' : bytes) v v', differ_only_in (f_off f) (kwidth (f_kind f)) b b' ->
  from_bytes (ly_parser l) b = Ok v -> from_bytes (ly_parser l) b' = Ok v' ->
  exists w w', same_except (f_name f) w w' (Ok v) (Ok v').
Proof.
  intros rt l Hl f Hf b b' v v' Hd. pose proof (proj1 (Forall_forall _ _) (layouts_ok rt) l Hl) as [E [Ht [Ho [Hw _]]]].
  pose proof (proj1 (Forall_forall _ _) (layouts_bitwise rt) l Hl) as Hb. cbv beta in Hb. rewrite !E. unfold object.
  destruct (in_split _ _ Hf) as [fs [gs Es]]. rewrite Es in *.
  destruct (fields_around fs f gs b b' 0 Hb Ht Ho ltac:(lia) Hd) as [F1 F2].
  rewrite !fields_app. cbn [fields]. rewrite <- F1, <- F2.
  destruct (fields b 0 fs) as [a|e]; [|discriminate]. destruct (decode b 0 _ _) as [w|]; [|discriminate]. destruct (decode b' 0 _ _) as [w'|]; [|destruct (fields b 0 gs); discriminate].
  destruct (fields b 0 gs) as [a'|]; [|discriminate]. cbn [rmap]. intros H H'. exists w, w'. right. exists (ly_class l), a, a'. split; congruence.
Qed.

Example C53_case : let b := B [0x7d;0x97;1;2;3;4;5;6;0x2f;7;0xab;0xcd] in let b' := B [0x7d;0x97;1;2;3;4;5;6;0x2f;7;0x11;0x22] in
  differ_only_in 80 16 b b' /\ In (F "crc" 80 (KBytes 2)) L_DmrDataHeader_DataHeaderShortDefined /\
  exists v v', from_bytes (p_DmrDataHeader_DataHeaderShortDefined V010) b = Ok v /\ from_bytes (p_DmrDataHeader_DataHeaderShortDefined V010) b' = Ok v' /\
    getattr "crc" v = Some (VBytes (B [0xab; 0xcd])) /\ getattr "crc" v' = Some (VBytes (B [0x11; 0x22])).
Proof.
  cbv zeta. split; [|split].
  - split; [reflexivity|]. intros i Hi Hn. destruct (Z.lt_ge_cases i 80) as [H|H].
    + apply (agree_bit 10); [exists (B [0x7d;0x97;1;2;3;4;5;6;0x2f;7]), (B [0xab;0xcd]), (B [0x11;0x22]); auto|lia].
    + unfold bit. rewrite !nth_overflow; [reflexivity|cbn [B map List.length]; lia..].
  - unfold L_DmrDataHeader_DataHeaderShortDefined. cbn [In]. tauto.
  - do 2 eexists. split; [vm_compute; reflexivity|]. split; [vm_compute; reflexivity|]. split; reflexivity.
Qed.
Print Assumptions C53_only_that_attribute_changes.
Print Assumptions C53_both_parse.

(** * C52 *)
Lemma part_names n f b k a e : part n f b k = Ok (a, e) -> a = [] \/ exists w, a = [(n, w)].
Proof.
  destruct f as [g|]; cbn [part]; [|intros H; left; congruence]. destruct (g b k) as [[w e']|]; [|discriminate]. cbn [rbind fst snd]. intros H. right. exists w. congruence.
Qed.
(** ** HDAP: the checksum is the byte before the terminating 0x03 *)
Theorem C52_hdap : forall rt (b : bytes) v, from_bytes (p_HyteraDmrApplicationProtocol rt) b = Ok v ->
  exists n, 0 < n /\ n + 2 <= blen b /\ getattr "checksum" v = Some (VInt (ubits b (8 * n) 8)) /\ ubits b (8 * (n + 1)) 8 = 3 /\
  forall p c c' t, b = p ++ c :: t -> blen p = n ->
    same_except "checksum" (VInt (bz c)) (VInt (bz c')) (from_bytes (p_HyteraDmrApplicationProtocol rt) b) (from_bytes (p_HyteraDmrApplicationProtocol rt) (p ++ c' :: t)).
Proof.
  intros rt b v. rewrite (runs_dec_from_bytes _ _ (d_hdap rt)). unfold stand_alone. pose proof (blen_nonneg b) as Hb.
  destruct (hdap_at b 0) as [[v' e]|] eqn:E; [|discriminate]. cbn [rmap fst]. intros H. assert (v' = v) as -> by congruence. clear H.
  pose proof E as E0. apply hdap_inv in E as [L1 [L2 [M [d [P ->]]]]]; [|lia]. exists (e - 2).
  split; [lia|]. split; [lia|]. split; [|split; [replace (e - 2 + 1) with (e - 1) by lia; exact M|]].
  { unfold hdap_head. destruct (part_names "data" _ b (0 + 1) d _ P) as [->|[w ->]]; reflexivity. }
  intros p c c' t -> Hp. rewrite (runs_dec_from_bytes _ _ (d_hdap rt)). unfold stand_alone.
  assert (Lt : blen (p ++ c :: t) = blen p + 1 + blen t) by (rewrite blen_app; unfold blen; cbn [List.length]; lia).
  assert (Lt' : blen (p ++ c' :: t) = blen p + 1 + blen t) by (rewrite blen_app; unfold blen; cbn [List.length]; lia).
  assert (A : agree (e - 2) (p ++ c :: t) (p ++ c' :: t)) by (exists p, (c :: t), (c' :: t); auto).
  destruct (part_local "data" _ (p ++ c :: t) (0 + 1) d _ ltac:(lia) (select_local _ _ hdap_bodies_local) P) as [_ P'].
  specialize (P' _ A). rewrite (agree_ubits (e - 2) (p ++ c :: t) (p ++ c' :: t) (8 * 0 + 1) 7 A) in P' by lia.
  rewrite (hdap_explicit (p ++ c' :: t) 0) by lia. destruct (Z.ltb_spec (blen (p ++ c' :: t)) (0 + 1)); [lia|]. rewrite P'. cbn [rbind fst snd].
  destruct (Z.ltb_spec (blen (p ++ c' :: t)) (e - 2 + 2)); [lia|].
  assert (M' : ubits (p ++ c' :: t) (8 * (e - 2 + 1)) 8 = 3).
  { rewrite <- M. replace (8 * (e - 2 + 1)) with (8 * blen (p ++ [c']) + 0) by (rewrite blen_app; change (blen [c']) with 1; lia).
    replace (8 * (e - 1)) with (8 * blen (p ++ [c]) + 0) by (rewrite blen_app; change (blen [c]) with 1; lia).
    change (p ++ c' :: t) with (p ++ [c'] ++ t). change (p ++ c :: t) with (p ++ [c] ++ t). rewrite !app_assoc, !ubits_shift by lia. reflexivity. }
  rewrite M'. change (3 =? 3) with true. cbv iota. cbn [rmap fst].
  assert (C : forall x, ubits (p ++ x :: t) (8 * (e - 2)) 8 = bz x).
  { intros x. replace (8 * (e - 2)) with (8 * blen p + 0) by lia. rewrite ubits_shift by lia. change (x :: t) with ([x] ++ t).
    rewrite <- (agree_ubits 1 [x] ([x] ++ t)); [apply (ubits_byte [x] 0)|apply agree_app|lia..]. cbn. lia. }
  rewrite !C. right. exists "HyteraDmrApplicationProtocol", (hdap_head (p ++ c :: t) 0 ++ d), [("message_footer", VBytes (B [3]))].
  rewrite <- !app_assoc. cbn [app]. split; [reflexivity|].
  unfold hdap_head. rewrite (agree_ubits (e - 2) _ _ (8 * 0 + 1) 7 A) by lia. rewrite (agree_bit (e - 2) _ _ (8 * 0) A) by lia. reflexivity.
Qed.
Print Assumptions C52_hdap.
Example C52_hdap_case : exists v, from_bytes (p_HyteraDmrApplicationProtocol V010) (B [0x11; 0; 3; 0; 4; 10; 0; 0; 80; 0xab; 3]) = Ok v /\ getattr "checksum" v = Some (VInt 0xab).
Proof. eexists. split; [vm_compute; reflexivity|]. reflexivity. Qed.

(** ** HRNP: bytes 10 and 11 *)
(** what follows the first bytes of a packet is decoded alike when only bytes 2 .. are replaced; telemetry included *)
Lemma tp_after h p p' t k : 0 <= k -> blen h = 2 -> blen p = blen p' -> tp_at (h ++ p ++ t) (2 + blen p + k) = tp_at (h ++ p' ++ t) (2 + blen p + k).
Proof.
  intros Hk Hh Hp. unfold tp_at, tp_selected_at.
  assert (A : agree 2 (h ++ p ++ t) (h ++ p' ++ t)) by (exists h, (p ++ t), (p' ++ t); auto).
  rewrite <- (agree_ubits 2 _ _ (8 * 0) 16 A) by lia. generalize (ubits (h ++ p ++ t) (8 * 0) 16) as s. intros s. rewrite !app_assoc.
  assert (E : 2 + blen p = blen (h ++ p)) by (rewrite blen_app; lia). assert (E' : 2 + blen p = blen (h ++ p')) by (rewrite blen_app; lia).
  assert (F : forall q, blen q = 2 + blen p -> fields (q ++ t) (2 + blen p + k) L_TelemetryProtocol = fields t k L_TelemetryProtocol).
  { intros q <-. apply fields_shift; [lia|unfold L_TelemetryProtocol; kindsshift]. }
  rewrite !F by lia. destruct (fields t k L_TelemetryProtocol) as [a|]; [|reflexivity]. cbn [rbind].
  assert (G : forall q, blen q = 2 + blen p -> part "data" (select s tp_bodies) (q ++ t) (2 + blen p + k + 4) = rmap (fun x => (fst x, 2 + blen p + snd x)) (part "data" (select s tp_bodies) t (k + 4))).
  { intros q Hq. rewrite <- Hq, <- Z.add_assoc, part_shift; [reflexivity|lia|apply select_shifts, tp_bodies_shift]. }
  rewrite !G by lia. reflexivity.
Qed.
Lemma hdap_after h p p' t : blen h = 2 -> blen p = blen p' -> hdap_at (h ++ p ++ t) (2 + blen p) = hdap_at (h ++ p' ++ t) (2 + blen p).
Proof.
  intros Hh Hp. pose proof (blen_nonneg t) as Ht. pose proof (blen_nonneg p) as Hq.
  assert (E : 2 + blen p = blen (h ++ p)) by (rewrite blen_app; lia). assert (E' : 2 + blen p = blen (h ++ p')) by (rewrite blen_app; lia).
  destruct (Z.eq_dec (ubits t (8 * 0 + 1) 7) 0x12) as [T|T].
  2:{ rewrite !app_assoc. transitivity (shifted (h ++ p) (hdap_at t 0)).
      - pose proof (hdap_shift (h ++ p) t 0 ltac:(lia) T) as X. rewrite Z.add_0_r, <- E in X. exact X.
      - pose proof (hdap_shift (h ++ p') t 0 ltac:(lia) T) as X. rewrite Z.add_0_r in X. unfold shifted in *. rewrite <- E' in X. rewrite <- E. symmetry. exact X. }
  assert (L : forall q, blen q = blen p -> blen (h ++ q ++ t) = 2 + blen p + blen t) by (intros q Hq'; rewrite !blen_app; lia).
  assert (U : forall q o w, blen q = blen p -> 0 <= o -> ubits (h ++ q ++ t) (8 * (2 + blen p) + o) w = ubits t o w).
  { intros q o w Hq' Ho. rewrite app_assoc. replace (8 * (2 + blen p)) with (8 * blen (h ++ q)) by (rewrite blen_app; lia). apply ubits_shift. exact Ho. }
  rewrite (hdap_explicit (h ++ p ++ t)), (hdap_explicit (h ++ p' ++ t)) by (rewrite ?(L p), ?(L p') by lia; lia). rewrite !L, !U by lia. destruct (Z.ltb_spec (2 + blen p + blen t) (2 + blen p + 1)) as [|L1]; [reflexivity|].
  change (8 * 0 + 1) with 1 in T. rewrite T. assert (S : select 0x12 hdap_bodies = Some tp_at) by reflexivity. rewrite S. cbn [part].
  rewrite <- (tp_after h p p' t 1) by lia. destruct (tp_at (h ++ p ++ t) (2 + blen p + 1)) as [[v e]|] eqn:R; [|reflexivity]. cbn [rbind fst snd].
  pose proof (proj1 (local_tp (h ++ p ++ t) (2 + blen p + 1) v e ltac:(rewrite L by lia; lia) R)) as R'. rewrite L in R' by lia.
  assert (W : forall o, 0 <= o -> ubits (h ++ p' ++ t) (8 * (e + o)) 8 = ubits (h ++ p ++ t) (8 * (e + o)) 8).
  { intros o Ho. replace (8 * (e + o)) with (8 * (2 + blen p) + (8 * (e + o) - 8 * (2 + blen p))) by lia. rewrite !U by lia. reflexivity. }
  rewrite (W 1) by lia. specialize (W 0 ltac:(lia)). rewrite Z.add_0_r in W. rewrite W.
  assert (H1 : hdap_head (h ++ p' ++ t) (2 + blen p) = hdap_head (h ++ p ++ t) (2 + blen p)).
  { unfold hdap_head. rewrite !U by lia. do 3 f_equal. rewrite !app_assoc. replace (8 * (2 + blen p)) with (8 * blen (h ++ p) + 0) at 2 by lia. replace (8 * (2 + blen p)) with (8 * blen (h ++ p') + 0) by lia.
    rewrite !bit_shift by lia. reflexivity. }
  rewrite H1. destruct (_ <? _); [reflexivity|]. destruct (_ =? 3); [reflexivity|]. do 3 f_equal. rewrite !app_assoc.
  replace (e + 1) with (blen (h ++ p) + (e + 1 - blen (h ++ p))) at 1 by lia. replace (e + 1) with (blen (h ++ p') + (e + 1 - blen (h ++ p))) at 2 by lia. rewrite !slice_shift by lia. reflexivity.
Qed.
(** the packet length and the checksum (bytes 8 - 11) are reported and nothing else depends on them, whatever the message inside *)
Theorem C33_length_and_checksum_not_enforced : forall rt x c c' t v, blen x = 8 -> blen c = 4 -> blen c' = 4 ->
  from_bytes (p_HyteraRadioNetworkProtocol rt) (x ++ c ++ t) = Ok v ->
  exists v', from_bytes (p_HyteraRadioNetworkProtocol rt) (x ++ c' ++ t) = Ok v' /\
    getattr "hrnp_packet_length" v' = Some (VInt (ubits c' 0 16)) /\ getattr "checksum" v' = Some (VInt (ubits c' 16 16)) /\
    forall n, n <> "hrnp_packet_length" -> n <> "checksum" -> getattr n v' = getattr n v.
Proof.
  intros rt x c c' t v Hx Hc Hc'. pose proof (blen_nonneg t) as Ht.
  assert (L : blen (x ++ c ++ t) = 12 + blen t) by (rewrite !blen_app; lia). assert (L' : blen (x ++ c' ++ t) = 12 + blen t) by (rewrite !blen_app; lia).
  assert (A : agree 8 (x ++ c ++ t) (x ++ c' ++ t)) by (exists x, (c ++ t), (c' ++ t); auto).
  assert (U : forall o w, 0 <= o -> 0 <= w -> o + w <= 64 -> ubits (x ++ c' ++ t) o w = ubits (x ++ c ++ t) o w) by (intros; symmetry; apply (agree_ubits 8); (assumption || lia)).
  rewrite !hrnp_explicit, L, L'. unfold hrnp_head. rewrite !U by lia.
  destruct (Z.ltb_spec (12 + blen t) 1); [lia|]. destruct (negb _); [discriminate|]. destruct (Z.ltb_spec (12 + blen t) 12); [lia|].
  assert (C1 : ubits (x ++ c' ++ t) 64 16 = ubits c' 0 16).
  { replace 64 with (8 * blen x + 0) by lia. rewrite ubits_shift by lia. rewrite (agree_ubits 4 c' (c' ++ t)); [reflexivity|rewrite <- Hc'; apply agree_app|lia..]. }
  assert (C2 : ubits (x ++ c' ++ t) 80 16 = ubits c' 16 16).
  { replace 80 with (8 * blen x + 16) by lia. rewrite ubits_shift by lia. rewrite (agree_ubits 4 c' (c' ++ t)); [reflexivity|rewrite <- Hc'; apply agree_app|lia..]. }
  rewrite C1, C2.
  assert (P : part "data" (if ubits (x ++ c ++ t) 24 8 =? 0 then Some hdap_at else None) (x ++ c' ++ t) 12 = part "data" (if ubits (x ++ c ++ t) 24 8 =? 0 then Some hdap_at else None) (x ++ c ++ t) 12).
  { destruct (_ =? 0); [|reflexivity]. cbn [part].
    assert (Ex : x = firstn 2 x ++ skipn 2 x) by (symmetry; apply firstn_skipn).
    assert (L2 : blen (firstn 2 x) = 2) by (unfold blen in *; rewrite firstn_length; lia). assert (L6 : blen (skipn 2 x) = 6) by (unfold blen in *; rewrite skipn_length; lia).
    rewrite Ex, <- !app_assoc. pose proof (hdap_after (firstn 2 x) (skipn 2 x ++ c) (skipn 2 x ++ c') t L2 ltac:(rewrite !blen_app; lia)) as X.
    rewrite blen_app, L6, Hc, <- !app_assoc in X. change (2 + (6 + 4)) with 12 in X. rewrite X. reflexivity. }
  rewrite P. match goal with |- context [rbind ?x _ = Ok v] => destruct x as [[d n]|e]; cbn [rbind fst snd]; intros E; [|discriminate E] end. match type of E with Ok ?y = _ => assert (v = y) as -> by congruence end.
  eexists. split; [reflexivity|]. split; [reflexivity|]. split; [reflexivity|]. intros m N1 N2. unfold getattr. cbn [app lookup].
  rewrite (proj2 (String.eqb_neq m "hrnp_packet_length") N1), (proj2 (String.eqb_neq m "checksum") N2). reflexivity.
Qed.
Print Assumptions C33_length_and_checksum_not_enforced.
Theorem C52_hrnp : forall rt (x c c' t : bytes), blen x = 10 -> blen c = 2 -> blen c' = 2 ->
  same_except "checksum" (VInt (ubits c 0 16)) (VInt (ubits c' 0 16))
    (from_bytes (p_HyteraRadioNetworkProtocol rt) (x ++ c ++ t)) (from_bytes (p_HyteraRadioNetworkProtocol rt) (x ++ c' ++ t)).
Proof.
  intros rt x c c' t Hx Hc Hc'. pose proof (blen_nonneg t) as Ht. rewrite !hrnp_explicit.
  assert (L : forall q, blen q = 2 -> blen (x ++ q ++ t) = 12 + blen t) by (intros q Hq; rewrite !blen_app; lia). rewrite !L by assumption.
  destruct (Z.ltb_spec (12 + blen t) 1); [lia|]. destruct (Z.ltb_spec (12 + blen t) 12); [lia|].
  assert (A : agree 10 (x ++ c ++ t) (x ++ c' ++ t)) by (exists x, (c ++ t), (c' ++ t); auto).
  rewrite (agree_slice 10 _ _ 0 1 A) by lia. rewrite !(agree_ubits 10 _ _ _ _ A) by lia.
  destruct (negb _); [left; eauto|].
  assert (D : part "data" (if ubits (x ++ c' ++ t) 24 8 =? 0 then Some hdap_at else None) (x ++ c ++ t) 12 = part "data" (if ubits (x ++ c' ++ t) 24 8 =? 0 then Some hdap_at else None) (x ++ c' ++ t) 12).
  { destruct (_ =? 0); cbn [part]; [|reflexivity].
    assert (Ex : x = firstn 2 x ++ skipn 2 x) by (symmetry; apply firstn_skipn).
    assert (L2 : blen (firstn 2 x) = 2) by (unfold blen in *; rewrite firstn_length; lia). assert (L8 : blen (skipn 2 x) = 8) by (unfold blen in *; rewrite skipn_length; lia).
    rewrite Ex, <- !app_assoc. pose proof (hdap_after (firstn 2 x) (skipn 2 x ++ c) (skipn 2 x ++ c') t L2 ltac:(rewrite !blen_app; lia)) as X.
    rewrite blen_app, L8, Hc, <- !app_assoc in X. change (2 + (8 + 2)) with 12 in X. rewrite X. reflexivity. }
  rewrite D. clear D. match goal with |- context [part ?n ?f (x ++ c' ++ t) 12] => destruct (part n f (x ++ c' ++ t) 12) as [[d e]|y] end; [|left; exists y; auto]. cbn [rbind fst snd]. right.
  assert (C : forall q, blen q = 2 -> ubits (x ++ q ++ t) 80 16 = ubits q 0 16).
  { intros q Hq. replace 80 with (8 * blen x + 0) by lia. rewrite ubits_shift by lia. rewrite (agree_ubits 2 q (q ++ t)); [reflexivity|rewrite <- Hq; apply agree_app|lia..]. }
  unfold hrnp_head. rewrite !C by assumption. rewrite !(agree_ubits 10 _ _ _ _ A) by lia.
  exists "HyteraRadioNetworkProtocol", (firstn 8 (hrnp_head (x ++ c' ++ t))), d. split; reflexivity.
Qed.
Print Assumptions C52_hrnp.
(** a telemetry message inside HRNP *)
Example C52_hrnp_case : exists v, from_bytes (p_HyteraRadioNetworkProtocol V010) (B [0x7e; 4; 0; 0; 0x20; 0x10; 0; 1; 0; 24] ++ B [0x12; 0x34] ++ B [0x12; 0xa0; 1; 0; 0; 0xab; 3]) = Ok v /\
  getattr "checksum" v = Some (VInt 0x1234).
Proof. eexists. split; [vm_compute; reflexivity|]. reflexivity. Qed.

(** ** Data header: octets 10 and 11 *)
Lemma one_field cls fs n K (b b' : bytes) w w' : Forall (fun f => bitwise (f_kind f)) (fs ++ [F n (fs_end fs 0) K]) -> tiles (fs ++ [F n (fs_end fs 0) K]) 0 = true -> kinds_ok (fs ++ [F n (fs_end fs 0) K]) = true ->
  differ_only_in (fs_end fs 0) (kwidth K) b b' -> decode b 0 (fs_end fs 0) K = Ok w -> decode b' 0 (fs_end fs 0) K = Ok w' ->
  same_except n w w' (object cls (fs ++ [F n (fs_end fs 0) K]) b 0) (object cls (fs ++ [F n (fs_end fs 0) K]) b' 0).
Proof.
  intros Hb Ht Ho Hd D D'. destruct (fields_around fs (F n (fs_end fs 0) K) [] b b' 0 Hb Ht Ho ltac:(lia) Hd) as [F1 _].
  unfold object. rewrite !fields_app. cbn [fields f_off f_kind f_name]. rewrite <- F1, D, D'. destruct (fields b 0 fs) as [a|e]; [|left; exists e; auto].
  cbn [rbind rmap]. right. exists cls, a, []. auto.
Qed.
Lemma differ_app x c c' : blen c = blen c' -> differ_only_in (8 * blen x) (8 * blen c) (x ++ c) (x ++ c').
Proof.
  intros Hc. split; [rewrite !blen_app; lia|]. intros i Hi Hn. destruct (Z.lt_ge_cases i (8 * blen x)).
  - apply (agree_bit (blen x)); [exists x, c, c'; auto|lia].
  - unfold bit. rewrite !nth_overflow; [reflexivity|..]; rewrite app_length; unfold blen in *; lia.
Qed.
Theorem C52_data_header : forall rt (x c c' t : bytes) o o', blen x = 10 -> blen c = 2 -> blen c' = 2 ->
  open_object p_DmrDataHeader (x ++ c ++ t) = Ok o -> open_object p_DmrDataHeader (x ++ c' ++ t) = Ok o' ->
  In (ubits x 4 4) [0; 1; 2; 3; 13; 14; 15] ->
  same_except "crc" (VBytes c) (VBytes c') (fst (DmrDataHeader_data rt o)) (fst (DmrDataHeader_data rt o')).
Proof.
  intros rt x c c' t o o' Hx Hc Hc' Ho Ho' Hin. rewrite (header_data rt _ _ Ho), (header_data rt _ _ Ho'). unfold data_header_spec. pose proof (blen_nonneg t) as Ht.
  assert (L : forall q, blen q = 2 -> blen (x ++ q ++ t) = 12 + blen t) by (intros q Hq; rewrite !blen_app; lia). rewrite !L by assumption.
  destruct (Z.ltb_spec (12 + blen t) 12); [lia|].
  assert (U : forall q, ubits (x ++ q) 4 4 = ubits x 4 4) by (intros q; symmetry; apply (agree_ubits 10); [rewrite <- Hx; apply agree_app|lia..]). rewrite !U.
  assert (S : forall q, blen q = 2 -> slice (x ++ q ++ t) 0 12 = x ++ q).
  { intros q Hq. rewrite app_assoc. rewrite <- (agree_slice 12 (x ++ q) ((x ++ q) ++ t)); [|replace 12 with (blen (x ++ q)) by (rewrite blen_app; lia); apply agree_app|lia..].
    replace 12 with (blen (x ++ q)) by (rewrite blen_app; lia). apply slice_all. }
  rewrite !S by assumption.
  pose proof (differ_app x c c' ltac:(lia)) as D. rewrite Hx, Hc in D. change (8 * 10) with 80 in D. change (8 * 2) with 16 in D.
  assert (K : forall q, blen q = 2 -> decode (x ++ q) 0 80 (KBytes 2) = Ok (VBytes q)).
  { intros q Hq. cbn [decode kwidth]. rewrite (proj2 (fits_iff _ _ _)) by (rewrite blen_app; lia). do 2 f_equal. change (0 + 80 / 8) with 10. rewrite <- Hx, <- Hq. rewrite <- (app_nil_r q) at 1. apply slice_mid. }
  cbn [In] in Hin. repeat (destruct Hin as [<-|Hin]; [cbn [data_header_bodies select Z.eqb Pos.eqb];
    match goal with |- context [object ?cls ?fs] => let fs' := eval cbv delta [fs] in fs in let p := eval cbv in (firstn (List.length fs' - 1) fs') in
      change (object cls fs) with (object cls (p ++ [F "crc" (fs_end p 0) (KBytes 2)])); apply one_field;
      [cbn [app]; bitwise|reflexivity|reflexivity|exact D|apply K; assumption|apply K; assumption] end|]).
  destruct Hin.
Qed.
Print Assumptions C52_data_header.
Example C52_data_header_case : exists o o', open_object p_DmrDataHeader (B [0x7d;0x97;1;2;3;4;5;6;0x2f;7] ++ B [0xab; 0xcd]) = Ok o /\
  open_object p_DmrDataHeader (B [0x7d;0x97;1;2;3;4;5;6;0x2f;7] ++ B [1; 2]) = Ok o' /\ ubits (B [0x7d;0x97;1;2;3;4;5;6;0x2f;7]) 4 4 = 13.
Proof. do 2 eexists. split; [vm_compute; reflexivity|]. split; [vm_compute; reflexivity|]. vm_compute. reflexivity. Qed.

(** ** Link control: octets 9 - 11 (24-bit CRC), or octet 9 of a ten-octet word (5-bit checksum) *)
Lemma flc_content (b b' : bytes) f : blen b = blen b' -> agree 9 b b' -> select (ubits b 2 6) flc_bodies = Some f -> f b 2 = f b' 2.
Proof.
  intros Hl A. unfold flc_bodies, select. intros Hs.
  repeat match goal with H : context [if ?z =? ?c then _ else _] |- _ => destruct (z =? c) end; try discriminate.
  all: match goal with H : Some _ = Some _ |- _ => injection H as <- end.
  all: unfold object; f_equal; match goal with |- fields _ _ ?fs = _ =>
    assert (T : tiles fs 0 = true) by reflexivity; assert (O : kinds_ok fs = true) by reflexivity; assert (E : fs_end fs 0 = 56) by reflexivity;
    apply fields_bitwise; [unfold fs; bitwise|exact O|lia|exact Hl|intros g Hg i Hi; pose proof (tiles_inside fs 0 g T O Hg) as [G1 G2]; rewrite E in G2; apply (agree_bit 9); [exact A|lia]] end.
Qed.
Lemma flc_known_in z : In z [0; 3; 4; 5; 6; 7; 8] -> exists f, select z flc_bodies = Some f.
Proof. cbn [In]. intros H. repeat (destruct H as [<-|H]; [eexists; reflexivity|]). destruct H. Qed.
Theorem C52_link_control_crc : forall rt (x c c' t : bytes), blen x = 9 -> blen c = 3 -> blen c' = 3 -> In (ubits x 2 6) [0; 3; 4; 5; 6; 7; 8] ->
  same_except "crc_checksum" (VBytes c) (VBytes c') (from_bytes (p_FullLinkControl rt) (x ++ c ++ t)) (from_bytes (p_FullLinkControl rt) (x ++ c' ++ t)).
Proof.
  intros rt x c c' t Hx Hc Hc' Hin. rewrite !flc_ok. unfold flc_spec. pose proof (blen_nonneg t) as Ht.
  assert (L : forall q, blen q = 3 -> blen (x ++ q ++ t) = 12 + blen t) by (intros q Hq; rewrite !blen_app; lia).
  assert (A : agree 9 (x ++ c ++ t) (x ++ c' ++ t)) by (exists x, (c ++ t), (c' ++ t); auto).
  assert (Eu : ubits (x ++ c ++ t) 2 6 = ubits x 2 6) by (symmetry; apply (agree_ubits 9); [rewrite <- Hx; apply agree_app|lia..]).
  destruct (flc_known_in _ Hin) as [f Ef]. rewrite <- Eu in Ef. pose proof (flc_content (x ++ c ++ t) (x ++ c' ++ t) f ltac:(rewrite !L by assumption; reflexivity) A Ef) as Hf.
  rewrite !flc_header_ok by (rewrite L by assumption; lia). rewrite !(agree_ubits 9 _ _ _ _ A) in * by lia. rewrite !(agree_bit 9 _ _ _ A) by lia. rewrite !Ef, !L by assumption.
  destruct (Z.leb_spec (9 + 3) (12 + blen t)); [|lia]. destruct (Z.leb_spec (12 + blen t) 10); [lia|]. cbn [rbind optional]. rewrite <- Hf.
  destruct (f (x ++ c ++ t) 2) as [d|e]; [|left; exists e; auto]. cbn [rbind].
  assert (S : forall q, blen q = 3 -> slice (x ++ q ++ t) 9 3 = q) by (intros q Hq; rewrite <- Hx, <- Hq; apply slice_mid).
  rewrite !S by assumption. right. exists "FullLinkControl". do 2 eexists. rewrite !app_nil_r.
  split; [do 2 f_equal; instantiate (2 := _ ++ _); rewrite <- app_assoc; f_equal; reflexivity|]. rewrite <- app_assoc. reflexivity.
Qed.
Print Assumptions C52_link_control_crc.
Theorem C52_link_control_cs5 : forall rt (x : bytes) y y', blen x = 9 -> In (ubits x 2 6) [0; 3; 4; 5; 6; 7; 8] ->
  same_except "cs5_checksum" (VInt (bz y / 8)) (VInt (bz y' / 8)) (from_bytes (p_FullLinkControl rt) (x ++ [y])) (from_bytes (p_FullLinkControl rt) (x ++ [y'])).
Proof.
  intros rt x y y' Hx Hin. rewrite !flc_ok. unfold flc_spec.
  assert (L : forall q : byte, blen (x ++ [q]) = 10) by (intros q; rewrite blen_app; change (blen [q]) with 1; lia).
  assert (A : agree 9 (x ++ [y]) (x ++ [y'])) by (exists x, [y], [y']; auto).
  assert (Eu : ubits (x ++ [y]) 2 6 = ubits x 2 6) by (symmetry; apply (agree_ubits 9); [rewrite <- Hx; apply agree_app|lia..]).
  destruct (flc_known_in _ Hin) as [f Ef]. rewrite <- Eu in Ef. pose proof (flc_content (x ++ [y]) (x ++ [y']) f ltac:(rewrite !L; reflexivity) A Ef) as Hf.
  rewrite !flc_header_ok by (rewrite L; lia). rewrite !(agree_ubits 9 _ _ _ _ A) in * by lia. rewrite !(agree_bit 9 _ _ _ A) by lia. rewrite !Ef, !L.
  change (9 + 3 <=? 10) with false. change (10 <=? 10) with true. cbn [rbind optional]. rewrite <- Hf.
  destruct (f (x ++ [y]) 2) as [d|e]; [|left; exists e; auto].
  assert (S : forall q, fields (x ++ [q]) 9 [F "cs5_checksum" 0 (U 5)] = Ok [("cs5_checksum", VInt (bz q / 8))]).
  { intros q. spec_cbn. rewrite (proj2 (fits_iff _ _ _)) by (rewrite L; lia). cbn [rbind]. do 4 f_equal.
    norm_lits. replace 72 with (8 * blen x + 0) by lia. rewrite ubits_shift by lia. pose proof (ubits_byte [q] 0 ltac:(lia)) as Ub. cbn [Z.to_nat nth] in Ub. change (8 * 0) with 0 in Ub.
    rewrite <- Ub. clear. Transparent ubits. unfold ubits. Opaque ubits. change (Z.to_nat 5) with 5%nat. change (Z.to_nat 8) with 8%nat. cbn [ubits_n]. norm_lits.
    repeat match goal with |- context [bit [q] ?i] => destruct (bit [q] i) end; reflexivity. }
  cbn [rbind]. rewrite !S. cbn [rbind]. right. exists "FullLinkControl". do 2 eexists.
  split; [do 2 f_equal; instantiate (2 := _ ++ _); rewrite <- app_assoc; f_equal; reflexivity|]. rewrite <- app_assoc. reflexivity.
Qed.
Print Assumptions C52_link_control_cs5.
(** An LC with an opcode the library does not know has no body, and its octets 2 - 4 are reported as the CRC. *)
Theorem C52_link_control_unknown : forall rt (x c c' t : bytes), blen x = 2 -> blen c = 3 -> blen c' = 3 -> ~ In (ubits x 2 6) [0; 3; 4; 5; 6; 7; 8] ->
  same_except "crc_checksum" (VBytes c) (VBytes c') (from_bytes (p_FullLinkControl rt) (x ++ c ++ t)) (from_bytes (p_FullLinkControl rt) (x ++ c' ++ t)).
Proof.
  intros rt x c c' t Hx Hc Hc' Hin. rewrite !flc_ok. unfold flc_spec. pose proof (blen_nonneg t) as Ht.
  assert (L : forall q, blen q = 3 -> blen (x ++ q ++ t) = 5 + blen t) by (intros q Hq; rewrite !blen_app; lia).
  assert (A : agree 2 (x ++ c ++ t) (x ++ c' ++ t)) by (exists x, (c ++ t), (c' ++ t); auto).
  assert (Eu : ubits (x ++ c ++ t) 2 6 = ubits x 2 6) by (symmetry; apply (agree_ubits 2); [rewrite <- Hx; apply agree_app|lia..]).
  assert (Ef : select (ubits (x ++ c ++ t) 2 6) flc_bodies = None).
  { rewrite Eu. unfold flc_bodies, select. cbn [In] in Hin. repeat match goal with |- context [if ?z =? ?c then _ else _] => destruct (Z.eqb_spec z c) as [Q|Q]; [exfalso; apply Hin; rewrite Q; tauto|clear Q] end. reflexivity. }
  rewrite !flc_header_ok by (rewrite L by assumption; lia). rewrite !(agree_ubits 2 _ _ _ _ A) in * by lia. rewrite !(agree_bit 2 _ _ _ A) by lia. rewrite !Ef, !L by assumption.
  destruct (Z.leb_spec (2 + 3) (5 + blen t)); [|lia]. cbn [rbind optional].
  assert (S : forall q, blen q = 3 -> slice (x ++ q ++ t) 2 3 = q) by (intros q Hq; rewrite <- Hx, <- Hq; apply slice_mid).
  rewrite !S by assumption.
  assert (G : forall q, blen q = 3 -> fields (x ++ q ++ t) (2 + 3) [F "cs5_checksum" 0 (U 5)] = fields t 0 [F "cs5_checksum" 0 (U 5)]).
  { intros q Hq. rewrite app_assoc. replace (2 + 3) with (blen (x ++ q) + 0) by (rewrite blen_app; lia). apply fields_shift; [lia|kindsshift]. }
  rewrite !G by assumption. destruct (5 + blen t <=? 10).
  - destruct (fields t 0 [F "cs5_checksum" 0 (U 5)]) as [a|e]; [|left; exists e; auto]. cbn [rbind]. right. exists "FullLinkControl". do 2 eexists. cbn [app].
    split; [do 2 f_equal; instantiate (2 := [_; _; _; _]); reflexivity|]. reflexivity.
  - cbn [rbind]. right. exists "FullLinkControl". do 2 eexists. cbn [app]. split; [do 2 f_equal; instantiate (2 := [_; _; _; _]); reflexivity|]. reflexivity.
Qed.
Print Assumptions C52_link_control_unknown.
Example C52_link_control_case : In (ubits (B [0;0;0;0;0;0x19;0x23;0x8a;0x4f]) 2 6) [0; 3; 4; 5; 6; 7; 8] /\
  (exists v, from_bytes (p_FullLinkControl V010) (B [0;0;0;0;0;0x19;0x23;0x8a;0x4f] ++ B [1;2;3]) = Ok v) /\
  (exists v, from_bytes (p_FullLinkControl V010) (B [0;0;0;0;0;0x19;0x23;0x8a;0x4f] ++ B [0xd0]) = Ok v).
Proof. split; [left; reflexivity|]. split; eexists; vm_compute; reflexivity. Qed.
