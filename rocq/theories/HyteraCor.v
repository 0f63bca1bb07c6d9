(** The hytera decoders are local, position independent (telemetry excepted) and raise only the
    documented exceptions. *)
From Verif Require Import PyBase Runtime Codec CodecSpec Spec DecSpec RuntimeProofs TilesProofs DecAlgebra Enums HyteraSpec.
From Coq Require Import ZifyBool.
Ltac Zify.zify_post_hook ::= Z.div_mod_to_equations.
Open Scope string_scope.
Open Scope list_scope.
Open Scope Z_scope.

Ltac tablelocal := apply local_table; [reflexivity|kindslocal].
Ltac tableshift := apply shifts_table; kindsshift.
Ltac tablesane := apply saned_table; kindssane.

(** get the next sub-result out of a hypothesis about a chain of [let*] *)
Ltac stepok H a E := match type of H with rbind ?r _ = Ok _ => destruct r as [a|] eqn:E; [cbn [rbind] in H|discriminate H] end.

Lemma rrs_shape ty : table_ok (rrs_table ty) = true /\ kinds_local (rrs_table ty) /\ kinds_shift (rrs_table ty) /\ kinds_sane (rrs_table ty) /\ 64 <= fs_end (rrs_table ty) 0.
Proof.
  unfold rrs_table. destruct (ty =? 0x80) eqn:E1; destruct (ty =? 0x82) eqn:E2; cbn [orb];
    (split; [reflexivity|]); (split; [kindslocal|]); (split; [kindsshift|]); (split; [kindssane|]); cbn; lia.
Qed.
Lemma local_rrs : local rrs_at.
Proof.
  intros b k v e Hk H. unfold rrs_at in *. destruct (rrs_shape (ubits b (8 * k + 8) 8)) as [S1 [S2 [_ [_ S5]]]].
  destruct (local_table _ _ S1 S2 b k v e Hk H) as [F1 F2]. split; [exact F1|]. intros b' Ha.
  assert (k + 8 <= e).
  { unfold table in H. stepok H a E. assert (e = k + fs_end (rrs_table (ubits b (8 * k + 8) 8)) 0 / 8) as -> by congruence. lia. }
  rewrite <- (agree_ubits e b b') by (assumption || lia). apply F2, Ha.
Qed.
Lemma shifts_rrs : shifts rrs_at.
Proof.
  intros p b k Hk. unfold rrs_at. replace (8 * (blen p + k) + 8) with (8 * blen p + (8 * k + 8)) by lia. rewrite ubits_shift by lia.
  apply shifts_table; [|assumption]. apply rrs_shape.
Qed.
Lemma saned_rrs : saned rrs_at.
Proof. intros b k. apply saned_table. apply rrs_shape. Qed.

Lemma local_dds : local dds_at. Proof. unfold dds_at, L_DataDeliveryStates. tablelocal. Qed.
Lemma shifts_dds : shifts dds_at. Proof. unfold dds_at, L_DataDeliveryStates. tableshift. Qed.
Lemma saned_dds : saned dds_at. Proof. unfold dds_at, L_DataDeliveryStates. tablesane. Qed.

(** ** DTP *)
Lemma local_dtp_request ml : local (dtp_request ml).
Proof.
  intros b k v e Hk H. unfold dtp_request in *. stepok H h E1. stepok H t E2.
  destruct (table_fields (L_dtp_numbered "file_size") b k h eq_refl ltac:(unfold L_dtp_numbered; kindslocal) Hk E1) as [_ [F1 F2]].
  destruct (text_at_local UTF16LE b (k + 10) _ _ ltac:(lia) E2) as [G0 [G1 G2]]. assert (e = k + ml) as -> by congruence.
  split; [lia|]. intros b' Ha. rewrite (F2 b' (k + ml)), (G2 b' (k + ml)); try assumption; try lia; try (cbn; lia).
Qed.
Lemma local_dtp_slice ml : local (dtp_slice ml).
Proof.
  intros b k v e Hk H. unfold dtp_slice in *. stepok H h E1. stepok H t E2.
  destruct (table_fields (L_dtp_numbered "block_number") b k h eq_refl ltac:(unfold L_dtp_numbered; kindslocal) Hk E1) as [_ [F1 F2]].
  destruct (bytes_at_local b (k + 10) _ _ ltac:(lia) E2) as [G0 [G1 G2]]. assert (e = k + ml) as -> by congruence.
  split; [lia|]. intros b' Ha. rewrite (F2 b' (k + ml)), (G2 b' (k + ml)); try assumption; try lia; try (cbn; lia).
Qed.
Lemma shifts_dtp_request ml : shifts (dtp_request ml).
Proof.
  intros p b k Hk. unfold dtp_request. rewrite fields_shift by (first [assumption|unfold L_dtp_numbered; kindsshift]).
  rewrite <- Z.add_assoc, text_at_shift by lia. destruct (fields b k _); [|reflexivity]. cbn [rbind]. destruct (text_at _ _ _ _); [|reflexivity].
  cbn. rewrite Z.add_assoc. reflexivity.
Qed.
Lemma shifts_dtp_slice ml : shifts (dtp_slice ml).
Proof.
  intros p b k Hk. unfold dtp_slice. rewrite fields_shift by (first [assumption|unfold L_dtp_numbered; kindsshift]).
  rewrite <- Z.add_assoc, bytes_at_shift by lia. destruct (fields b k _); [|reflexivity]. cbn [rbind]. destruct (bytes_at _ _ _); [|reflexivity].
  cbn. rewrite Z.add_assoc. reflexivity.
Qed.
Lemma saned_dtp_request ml : saned (dtp_request ml).
Proof. intros b k. unfold dtp_request. apply sane_bind; [apply fields_sane; unfold L_dtp_numbered; kindssane|]. intros h _. apply sane_bind; [apply text_at_sane|]. intros; exact I. Qed.
Lemma saned_dtp_slice ml : saned (dtp_slice ml).
Proof. intros b k. unfold dtp_slice. apply sane_bind; [apply fields_sane; unfold L_dtp_numbered; kindssane|]. intros h _. apply sane_bind; [apply bytes_at_sane|]. intros; exact I. Qed.

Lemma dtp_bodies_local ml : Forall (fun zf => local (snd zf)) (dtp_bodies ml).
Proof.
  unfold dtp_bodies. repeat (apply Forall_cons; [cbn [snd]|]); [apply local_dtp_request|tablelocal|apply local_dtp_slice|tablelocal|tablelocal|tablelocal|apply Forall_nil].
Qed.
Lemma dtp_bodies_shift ml : Forall (fun zf => shifts (snd zf)) (dtp_bodies ml).
Proof.
  unfold dtp_bodies. repeat (apply Forall_cons; [cbn [snd]|]); [apply shifts_dtp_request|tableshift|apply shifts_dtp_slice|tableshift|tableshift|tableshift|apply Forall_nil].
Qed.
Lemma dtp_bodies_sane ml : Forall (fun zf => saned (snd zf)) (dtp_bodies ml).
Proof.
  unfold dtp_bodies. repeat (apply Forall_cons; [cbn [snd]|]); [apply saned_dtp_request|tablesane|apply saned_dtp_slice|tablesane|tablesane|tablesane|apply Forall_nil].
Qed.

(** header table, then a part selected from numbers in the header *)
Lemma local_headed cls fs n (sel : bytes -> Z -> option decoder) (f : decoder) (w : Z) :
  (forall b k, f b k = let* h := fields b k fs in let* d := part n (sel b k) b (k + w) in Ok (VObj cls (h ++ fst d), snd d)) ->
  table_ok fs = true -> kinds_local fs -> fs_end fs 0 = 8 * w -> 0 <= w ->
  (forall b b' k, 0 <= k -> agree (k + w) b b' -> sel b k = sel b' k) ->
  (forall b k g, sel b k = Some g -> local g) -> local f.
Proof.
  intros Hf Ht Hl Hw H0 Hsel Hg b k v e Hk H. rewrite Hf in H. stepok H h E1. stepok H d E2. destruct d as [d e'].
  assert (e' = e) as -> by (cbn [snd] in H; congruence).
  destruct (table_fields fs b k h Ht Hl Hk E1) as [_ [F1 F2]]. rewrite Hw in *. replace (8 * w / 8) with w in * by lia.
  destruct (part_local n _ b (k + w) d e ltac:(lia) (Hg b k) E2) as [G1 G2]. split; [lia|]. intros b' Ha. rewrite Hf.
  rewrite (F2 b' e), <- (Hsel b b' k), (G2 b' Ha); try assumption; try lia. eapply agree_mono; [|exact Ha]. lia.
Qed.
Lemma shifts_headed cls fs n (sel : bytes -> Z -> option decoder) (f : decoder) (w : Z) :
  (forall b k, f b k = let* h := fields b k fs in let* d := part n (sel b k) b (k + w) in Ok (VObj cls (h ++ fst d), snd d)) ->
  kinds_shift fs -> 0 <= w ->
  (forall p b k, 0 <= k -> sel (p ++ b) (blen p + k) = sel b k) ->
  (forall b k g, sel b k = Some g -> shifts g) -> shifts f.
Proof.
  intros Hf Hs Hw Hsel Hg p b k Hk. rewrite !Hf, fields_shift, Hsel by assumption. rewrite <- Z.add_assoc, part_shift by (first [lia|apply Hg]).
  destruct (fields b k fs); [|reflexivity]. cbn [rbind]. destruct (part n (sel b k) b (k + w)) as [[d e]|y]; reflexivity.
Qed.
Lemma saned_headed cls fs n (sel : bytes -> Z -> option decoder) (f : decoder) (w : Z) :
  (forall b k, f b k = let* h := fields b k fs in let* d := part n (sel b k) b (k + w) in Ok (VObj cls (h ++ fst d), snd d)) ->
  kinds_sane fs -> (forall b k g, sel b k = Some g -> saned g) -> saned f.
Proof.
  intros Hf Hs Hg b k. rewrite Hf. apply sane_bind; [apply fields_sane, Hs|]. intros h _. apply sane_bind; [apply part_sane, Hg|intros; exact I].
Qed.

Ltac shiftbits := replace (8 * (blen _ + _)) with (8 * blen _ + 8 * _) by lia.
Lemma ubits_shift' p b k c w : 0 <= k -> 0 <= c -> ubits (p ++ b) (8 * (blen p + k) + c) w = ubits b (8 * k + c) w.
Proof. intros. replace (8 * (blen p + k) + c) with (8 * blen p + (8 * k + c)) by lia. apply ubits_shift. lia. Qed.
Lemma ubits_shift'' p b k w : 0 <= k -> ubits (p ++ b) (8 * (blen p + k)) w = ubits b (8 * k) w.
Proof. intros. replace (8 * (blen p + k)) with (8 * blen p + (8 * k)) by lia. apply ubits_shift. lia. Qed.
Lemma bit_shift' p b k c : 0 <= k -> 0 <= c -> bit (p ++ b) (8 * (blen p + k) + c) = bit b (8 * k + c).
Proof. intros. replace (8 * (blen p + k) + c) with (8 * blen p + (8 * k + c)) by lia. apply bit_shift. lia. Qed.
Lemma slice_shift' p b k c n : 0 <= k -> 0 <= c -> slice (p ++ b) (blen p + k + c) n = slice b (k + c) n.
Proof. intros. rewrite <- Z.add_assoc. apply slice_shift. lia. Qed.

Lemma local_dtp : local dtp_at.
Proof.
  apply (local_headed "DataTransmitProtocol" L_DataTransmitProtocol "data" (fun b k => select (ubits b (8 * k + 8) 8) (dtp_bodies (ubits b (8 * k + 16) 16))) _ 4); [intros; reflexivity|reflexivity|unfold L_DataTransmitProtocol; kindslocal|reflexivity|lia| |].
  - intros b b' k Hk Ha. rewrite !(agree_ubits (k + 4) b b') by (assumption || lia). reflexivity.
  - intros b k. apply select_local, dtp_bodies_local.
Qed.
Lemma shifts_dtp : shifts dtp_at.
Proof.
  apply (shifts_headed "DataTransmitProtocol" L_DataTransmitProtocol "data" (fun b k => select (ubits b (8 * k + 8) 8) (dtp_bodies (ubits b (8 * k + 16) 16))) _ 4); [intros; reflexivity|unfold L_DataTransmitProtocol; kindsshift|lia| |].
  - intros p b k Hk. cbv beta. rewrite !ubits_shift' by lia. reflexivity.
  - intros b k. apply select_shifts, dtp_bodies_shift.
Qed.
Lemma saned_dtp : saned dtp_at.
Proof.
  apply (saned_headed "DataTransmitProtocol" L_DataTransmitProtocol "data" (fun b k => select (ubits b (8 * k + 8) 8) (dtp_bodies (ubits b (8 * k + 16) 16))) _ 4); [intros; reflexivity|unfold L_DataTransmitProtocol; kindssane|].
  intros b k. apply select_saned, dtp_bodies_sane.
Qed.

(** ** LP *)
Lemma qgps_shape c : table_ok (L_quick_gps_request c) = true /\ kinds_local (L_quick_gps_request c) /\ kinds_shift (L_quick_gps_request c) /\ kinds_sane (L_quick_gps_request c) /\ 72 <= fs_end (L_quick_gps_request c) 0.
Proof.
  unfold L_quick_gps_request. destruct (c =? 1);
    (split; [reflexivity|]); (split; [kindslocal|]); (split; [kindsshift|]); (split; [kindssane|]); cbn; lia.
Qed.
Lemma local_qgps : local quick_gps_request.
Proof.
  intros b k v e Hk H. unfold quick_gps_request in *. destruct (qgps_shape (ubits b (8 * k + 64) 8)) as [S1 [S2 [_ [_ S5]]]].
  destruct (local_table _ _ S1 S2 b k v e Hk H) as [F1 F2]. split; [exact F1|]. intros b' Ha.
  assert (k + 9 <= e).
  { unfold table in H. stepok H a E. assert (e = k + fs_end (L_quick_gps_request (ubits b (8 * k + 64) 8)) 0 / 8) as -> by congruence. lia. }
  rewrite <- (agree_ubits e b b') by (assumption || lia). apply F2, Ha.
Qed.
Lemma shifts_qgps : shifts quick_gps_request.
Proof. intros p b k Hk. unfold quick_gps_request. rewrite ubits_shift' by lia. apply shifts_table; [|assumption]. apply qgps_shape. Qed.
Lemma saned_qgps : saned quick_gps_request.
Proof. intros b k. apply saned_table. apply qgps_shape. Qed.

Lemma lp_bodies_local : Forall (fun zf => local (snd zf)) lp_bodies.
Proof. unfold lp_bodies. repeat (apply Forall_cons; [cbn [snd]; lazymatch goal with |- local (table _ ?fs) => unfold fs; tablelocal | _ => apply local_qgps end|]). apply Forall_nil. Qed.
Lemma lp_bodies_shift : Forall (fun zf => shifts (snd zf)) lp_bodies.
Proof. unfold lp_bodies. repeat (apply Forall_cons; [cbn [snd]; lazymatch goal with |- shifts (table _ ?fs) => unfold fs; tableshift | _ => apply shifts_qgps end|]). apply Forall_nil. Qed.
Lemma lp_bodies_sane : Forall (fun zf => saned (snd zf)) lp_bodies.
Proof. unfold lp_bodies. repeat (apply Forall_cons; [cbn [snd]; lazymatch goal with |- saned (table _ ?fs) => unfold fs; tablesane | _ => apply saned_qgps end|]). apply Forall_nil. Qed.

Lemma local_lp : local lp_at.
Proof.
  apply (local_headed "LocationProtocol" L_LocationProtocol "data" (fun b k => select (ubits b (8 * k) 16) lp_bodies) _ 4); [intros; reflexivity|reflexivity|unfold L_LocationProtocol; kindslocal|reflexivity|lia| |].
  - intros b b' k Hk Ha. rewrite !(agree_ubits (k + 4) b b') by (assumption || lia). reflexivity.
  - intros b k. apply select_local, lp_bodies_local.
Qed.
Lemma shifts_lp : shifts lp_at.
Proof.
  apply (shifts_headed "LocationProtocol" L_LocationProtocol "data" (fun b k => select (ubits b (8 * k) 16) lp_bodies) _ 4); [intros; reflexivity|unfold L_LocationProtocol; kindsshift|lia| |].
  - intros p b k Hk. cbv beta. rewrite !ubits_shift'' by lia. reflexivity.
  - intros b k. apply select_shifts, lp_bodies_shift.
Qed.
Lemma saned_lp : saned lp_at.
Proof.
  apply (saned_headed "LocationProtocol" L_LocationProtocol "data" (fun b k => select (ubits b (8 * k) 16) lp_bodies) _ 4); [intros; reflexivity|unfold L_LocationProtocol; kindssane|].
  intros b k. apply select_saned, lp_bodies_sane.
Qed.

(** ** TMP *)
Lemma tmp_shape opt ty : table_ok (tmp_fixed opt ty) = true /\ kinds_local (tmp_fixed opt ty) /\ kinds_shift (tmp_fixed opt ty) /\ kinds_sane (tmp_fixed opt ty) /\ 96 <= fs_end (tmp_fixed opt ty) 0.
Proof.
  unfold tmp_fixed. destruct opt; destruct (ty =? 0xA2) eqn:E1; destruct (ty =? 0xB2) eqn:E2; try lia;
    (split; [reflexivity|]); (split; [kindslocal|]); (split; [kindsshift|]); (split; [kindssane|]); cbn; lia.
Qed.
Lemma local_tmp : local tmp_at.
Proof.
  intros b k v e Hk H. unfold tmp_at in *. cbv zeta in H.
  set (opt := bit b (8 * k + 1)) in *. set (ty := ubits b (8 * k + 8) 8) in *. set (ml := ubits b (8 * k + 16) 16) in *. set (ol := ubits b (8 * k + 32) 16) in *.
  destruct (tmp_shape opt ty) as [S1 [S2 [_ [_ S5]]]].
  stepok H h E1. stepok H t E2. stepok H o E3.
  destruct (table_fields _ b k h S1 S2 Hk E1) as [_ [F1 F2]]. set (p := k + fs_end (tmp_fixed opt ty) 0 / 8) in *.
  assert (Hp : k + 12 <= p) by (unfold p; lia).
  set (tl := ml - 12 - (if opt then ol + 2 else 0)) in *.
  assert (Ht : p <= snd t <= blen b /\ forall b' e', snd t <= e' -> agree e' b b' ->
     (if (ty =? 161) || (ty =? 177) then let* x := text_at UTF16LE b' p tl in Ok ([("_m_option_sum_len", VInt (if opt then ol + 2 else 0)); ("tmdata", x)], p + tl) else Ok ([], p)) = Ok t).
  { destruct ((ty =? 161) || (ty =? 177)).
    - stepok E2 x E4. destruct (text_at_local UTF16LE b p _ _ ltac:(lia) E4) as [G0 [G1 G2]].
      assert (Et : snd t = p + tl) by (assert (t = ([("_m_option_sum_len", VInt (if opt then ol + 2 else 0)); ("tmdata", x)], p + tl)) as -> by congruence; reflexivity).
      split; [lia|]. intros b' e' He Ha. rewrite (G2 b' e') by (assumption || lia). exact E2.
    - assert (Et : snd t = p) by (assert (t = (@nil (string * pyval), p)) as -> by congruence; reflexivity). split; [lia|]. auto. }
  destruct Ht as [T1 T2].
  assert (Ho : snd t <= snd o <= blen b /\ forall b' e', snd o <= e' -> agree e' b b' ->
     (if opt then let* x := text_at UTF16LE b' (snd t) ol in Ok ([("option_field", x)], snd t + ol) else Ok ([], snd t)) = Ok o).
  { destruct opt.
    - stepok E3 x E4. destruct (text_at_local UTF16LE b (snd t) _ _ ltac:(lia) E4) as [G0 [G1 G2]].
      assert (Et : snd o = snd t + ol) by (assert (o = ([("option_field", x)], snd t + ol)) as -> by congruence; reflexivity).
      split; [lia|]. intros b' e' He Ha. rewrite (G2 b' e') by (assumption || lia). exact E3.
    - assert (Et : snd o = snd t) by (assert (o = (@nil (string * pyval), snd t)) as -> by congruence; reflexivity). split; [lia|]. auto. }
  destruct Ho as [O1 O2]. assert (snd o = e) as Ee by congruence. split; [lia|]. intros b' Ha. cbv zeta.
  rewrite <- (agree_bit e b b'), <- !(agree_ubits e b b') by (assumption || lia). fold opt ty ml ol. fold p tl.
  rewrite (F2 b' e) by (assumption || lia). cbn [rbind]. rewrite (T2 b' e) by (assumption || lia). cbn [rbind]. rewrite (O2 b' e) by (assumption || lia). exact H.
Qed.
Lemma shifts_tmp : shifts tmp_at.
Proof.
  intros q b k Hk. unfold tmp_at. cbv zeta. rewrite bit_shift', !ubits_shift' by lia.
  set (opt := bit b (8 * k + 1)) in *. set (ty := ubits b (8 * k + 8) 8) in *. set (ml := ubits b (8 * k + 16) 16) in *. set (ol := ubits b (8 * k + 32) 16) in *.
  destruct (tmp_shape opt ty) as [S1 [_ [S3 [_ S5]]]]. rewrite fields_shift by assumption.
  destruct (fields b k (tmp_fixed opt ty)) as [h|y]; [|reflexivity]. cbn [rbind]. rewrite <- !Z.add_assoc.
  set (w := fs_end (tmp_fixed opt ty) 0 / 8). assert (0 <= w) by (unfold w; lia). set (tl := ml - 12 - _).
  rewrite (text_at_shift UTF16LE q b (k + w) tl) by lia.
  assert (E : (if (ty =? 161) || (ty =? 177) then let* x := text_at UTF16LE b (k + w) tl in Ok ([("_m_option_sum_len", VInt (if opt then ol + 2 else 0)); ("tmdata", x)], blen q + (k + (w + tl))) else Ok ([], blen q + (k + w)))
    = shifted q (if (ty =? 161) || (ty =? 177) then let* x := text_at UTF16LE b (k + w) tl in Ok ([("_m_option_sum_len", VInt (if opt then ol + 2 else 0)); ("tmdata", x)], (k + (w + tl))) else Ok ([], (k + w)))).
  { destruct ((ty =? 161) || (ty =? 177)); [|reflexivity]. destruct (text_at UTF16LE b (k + w) tl); reflexivity. }
  rewrite E. clear E.
  assert (Hn : forall t, (if (ty =? 161) || (ty =? 177) then let* x := text_at UTF16LE b (k + w) tl in Ok ([("_m_option_sum_len", VInt (if opt then ol + 2 else 0)); ("tmdata", x)], (k + (w + tl))) else Ok ([], (k + w))) = Ok t -> 0 <= snd t).
  { intros t. destruct ((ty =? 161) || (ty =? 177)); [|intros [= <-]; cbn; lia]. destruct (text_at UTF16LE b (k + w) tl) eqn:E; [|discriminate].
    destruct (text_at_local UTF16LE b (k + w) _ _ ltac:(lia) E) as [G0 _]. cbn [rbind]. intros Et. assert (snd t = k + (w + tl)) by (assert (t = ([("_m_option_sum_len", VInt (if opt then ol + 2 else 0)); ("tmdata", a)], k + (w + tl))) as -> by congruence; reflexivity). lia. }
  destruct (if (ty =? 161) || (ty =? 177) then _ else _) as [t|y]; [|reflexivity]. specialize (Hn t eq_refl). cbn [shifted rmap rbind fst snd].
  destruct opt; [|reflexivity]. rewrite text_at_shift by assumption. destruct (text_at UTF16LE b (snd t) ol); [|reflexivity]. cbn. rewrite Z.add_assoc. reflexivity.
Qed.
Lemma saned_tmp : saned tmp_at.
Proof.
  intros b k. unfold tmp_at. cbv zeta. apply sane_bind; [apply fields_sane, tmp_shape|]. intros h _. apply sane_bind.
  - destruct (_ || _); [|exact I]. apply sane_bind; [apply text_at_sane|intros; exact I].
  - intros t _. apply sane_bind; [|intros; exact I]. destruct (bit b _); [|exact I]. apply sane_bind; [apply text_at_sane|intros; exact I].
Qed.

(** ** TP *)
Lemma agree_refl e b : 0 <= e <= blen b -> agree e b b.
Proof. intros H. apply (agree_mono (blen b)); [exact H|]. pose proof (agree_app b []) as A. rewrite app_nil_r in A. exact A. Qed.
Lemma local_ext_status : local extended_status_report.
Proof.
  intros b k v e Hk H. unfold extended_status_report in *. cbv zeta in *. stepok H h E1. stepok H g E2. stepok H t E3.
  destruct (table_fields L_extended_status_report b k h eq_refl ltac:(unfold L_extended_status_report; kindslocal) Hk E1) as [_ [F1 F2]].
  change (fs_end L_extended_status_report 0 / 8) with 11 in *.
  destruct (table_fields L_vio_extended_status b (k + 11) g eq_refl ltac:(unfold L_vio_extended_status; kindslocal) ltac:(lia) E2) as [_ [G1 G2]].
  change (fs_end L_vio_extended_status 0 / 8) with 3 in *.
  destruct (text_at_local UTF16LE b (k + 14) _ _ ltac:(lia) E3) as [T0 [T1 T2]].
  assert (e = k + 14 + ubits b (8 * (k + 11) + 8) 16) as He by congruence. split; [lia|]. intros b' Ha.
  rewrite (F2 b' e) by (assumption || lia). cbn [rbind]. rewrite (G2 b' e) by (assumption || lia). cbn [rbind].
  rewrite <- (agree_ubits e b b') by (assumption || lia). rewrite (T2 b' e) by (assumption || lia). exact H.
Qed.
Lemma shifts_ext_status : shifts extended_status_report.
Proof.
  intros p b k Hk. unfold extended_status_report. cbv zeta. rewrite fields_shift by (first [assumption|unfold L_extended_status_report; kindsshift]).
  rewrite <- !Z.add_assoc. rewrite ubits_shift', text_at_shift by lia. rewrite fields_shift by (first [lia|unfold L_vio_extended_status; kindsshift]).
  destruct (fields b k _); [|reflexivity]. cbn [rbind]. destruct (fields b (k + 11) _); [|reflexivity]. cbn [rbind]. destruct (text_at _ _ _ _); reflexivity.
Qed.
Lemma saned_ext_status : saned extended_status_report.
Proof.
  intros b k. unfold extended_status_report. cbv zeta. apply sane_bind; [apply fields_sane; unfold L_extended_status_report; kindssane|]. intros h _.
  apply sane_bind; [apply fields_sane; unfold L_vio_extended_status; kindssane|]. intros g _. apply sane_bind; [apply text_at_sane|intros; exact I].
Qed.
Lemma tp_bodies_local : Forall (fun zf => local (snd zf)) tp_bodies.
Proof. unfold tp_bodies. repeat (apply Forall_cons; [cbn [snd]; lazymatch goal with |- local (table _ ?fs) => unfold fs; tablelocal | _ => apply local_ext_status end|]). apply Forall_nil. Qed.
Lemma tp_bodies_shift : Forall (fun zf => shifts (snd zf)) tp_bodies.
Proof. unfold tp_bodies. repeat (apply Forall_cons; [cbn [snd]; lazymatch goal with |- shifts (table _ ?fs) => unfold fs; tableshift | _ => apply shifts_ext_status end|]). apply Forall_nil. Qed.
Lemma tp_bodies_sane : Forall (fun zf => saned (snd zf)) tp_bodies.
Proof. unfold tp_bodies. repeat (apply Forall_cons; [cbn [snd]; lazymatch goal with |- saned (table _ ?fs) => unfold fs; tablesane | _ => apply saned_ext_status end|]). apply Forall_nil. Qed.

Lemma tp_selected_local (j : Z -> Z) : (forall k, 0 <= k -> 0 <= j k <= k) -> local (fun b k => tp_selected_at (j k) b k).
Proof.
  intros Hj b k v e Hk H. unfold tp_selected_at in *. cbv zeta in *. stepok H h E1. stepok H d E2. destruct d as [d e'].
  assert (e' = e) as -> by (cbn [snd] in H; congruence).
  destruct (table_fields L_TelemetryProtocol b k h eq_refl ltac:(unfold L_TelemetryProtocol; kindslocal) Hk E1) as [_ [F1 F2]].
  change (fs_end L_TelemetryProtocol 0 / 8) with 4 in *.
  destruct (part_local "data" _ b (k + 4) d e ltac:(lia) (select_local _ _ tp_bodies_local) E2) as [G1 G2]. split; [lia|]. intros b' Ha.
  specialize (Hj k ltac:(lia)).
  rewrite (F2 b' e) by (assumption || lia). cbn [rbind]. rewrite <- (agree_ubits e b b') by (assumption || lia). rewrite (G2 b') by assumption. exact H.
Qed.
Lemma local_tp : local tp_at.
Proof. exact (tp_selected_local (fun _ => 0) ltac:(intros; lia)). Qed.
Lemma local_tp_intended : local tp_intended.
Proof. exact (tp_selected_local (fun k => k) ltac:(intros; lia)). Qed.
Lemma shifts_tp_intended : shifts tp_intended.
Proof.
  intros p b k Hk. unfold tp_intended, tp_selected_at. cbv zeta. rewrite ubits_shift'' by lia. rewrite fields_shift by (first [lia|unfold L_TelemetryProtocol; kindsshift]).
  rewrite <- Z.add_assoc, part_shift by (first [lia|apply select_shifts, tp_bodies_shift]). destruct (fields b k _); [|reflexivity]. cbn [rbind].
  destruct (part _ _ _ _) as [[d e]|y]; reflexivity.
Qed.
Lemma saned_tp j : saned (tp_selected_at j).
Proof.
  intros b k. unfold tp_selected_at. cbv zeta. apply sane_bind; [apply fields_sane; unfold L_TelemetryProtocol; kindssane|]. intros h _.
  apply sane_bind; [apply part_sane, select_saned, tp_bodies_sane|intros; exact I].
Qed.

(** ** RCP *)
Lemma local_rcp_generic ml : local (rcp_generic ml).
Proof.
  intros b k v e Hk H. unfold rcp_generic in *. stepok H x E1. destruct (bytes_at_local b k _ _ ltac:(lia) E1) as [G0 [G1 G2]].
  assert (e = k + ml) as He by congruence. split; [lia|]. intros b' Ha. rewrite (G2 b' e) by (assumption || lia). exact H.
Qed.
Lemma shifts_rcp_generic ml : shifts (rcp_generic ml).
Proof. intros p b k Hk. unfold rcp_generic. rewrite bytes_at_shift by lia. destruct (bytes_at b k ml); [|reflexivity]. cbn. rewrite Z.add_assoc. reflexivity. Qed.
Lemma saned_rcp_generic ml : saned (rcp_generic ml).
Proof. intros b k. unfold rcp_generic. apply sane_bind; [apply bytes_at_sane|intros; exact I]. Qed.

Lemma local_rcp_broadcast : local rcp_broadcast_request.
Proof.
  intros b k v e Hk H. unfold rcp_broadcast_request in *. cbv zeta in *. destruct (Z.ltb_spec (blen b) (k + 1)); [discriminate|].
  set (n := ubits b (8 * k) 8) in *. pose proof (ubits_bound b (8 * k) 8 ltac:(lia)) as Hn. fold n in Hn.
  destruct (Z.ltb_spec (blen b) (k + 1 + 2 * n)); [discriminate|]. assert (e = k + 1 + 2 * n) as -> by congruence. split; [lia|]. intros b' Ha.
  pose proof (agree_blen _ _ _ Ha). rewrite <- (agree_ubits (k + 1 + 2 * n) b b') by (assumption || lia). fold n.
  destruct (Z.ltb_spec (blen b') (k + 1)); [lia|]. destruct (Z.ltb_spec (blen b') (k + 1 + 2 * n)); [lia|]. rewrite <- H.
  do 5 f_equal. f_equal. f_equal. apply map_ext_in. intros i Hi. apply in_seq in Hi.
  rewrite !(agree_ubits (k + 1 + 2 * n) b b') by (assumption || lia). reflexivity.
Qed.
Lemma shifts_rcp_broadcast : shifts rcp_broadcast_request.
Proof.
  intros p b k Hk. unfold rcp_broadcast_request. cbv zeta. rewrite ubits_shift'' by lia. rewrite blen_app, <- !Z.add_assoc.
  destruct (Z.ltb_spec (blen p + blen b) (blen p + (k + 1))), (Z.ltb_spec (blen b) (k + 1)); try lia; [reflexivity|].
  set (n := ubits b (8 * k) 8) in *. pose proof (ubits_bound b (8 * k) 8 ltac:(lia)) as Hn. fold n in Hn.
  destruct (Z.ltb_spec (blen p + blen b) (blen p + (k + (1 + 2 * n)))), (Z.ltb_spec (blen b) (k + (1 + 2 * n))); try lia; [reflexivity|].
  unfold shifted. cbn [rmap fst snd]. do 5 f_equal. f_equal. f_equal. apply map_ext_in. intros i Hi. rewrite <- !Z.add_assoc, !ubits_shift'' by lia. reflexivity.
Qed.
Lemma saned_rcp_broadcast : saned rcp_broadcast_request.
Proof. intros b k. unfold rcp_broadcast_request. cbv zeta. destruct (_ <? _); [reflexivity|]. destruct (_ <? _); [reflexivity|exact I]. Qed.

Lemma rcp_id_shape ml : table_ok (L_rcp_identification ml) = true /\ kinds_local (L_rcp_identification ml) /\ kinds_shift (L_rcp_identification ml) /\ kinds_sane (L_rcp_identification ml).
Proof.
  unfold L_rcp_identification. destruct (Z.leb_spec 6 ml), (Z.leb_spec 198 ml), (Z.leb_spec 206 ml); try lia;
    (split; [reflexivity|]); (split; [kindslocal|]); (split; [kindsshift|]); kindssane.
Qed.
Lemma rcp_bodies_local ml : Forall (fun zf => local (snd zf)) (rcp_bodies ml).
Proof.
  unfold rcp_bodies. repeat (apply Forall_cons; [cbn [snd]; lazymatch goal with |- local (table _ (L_rcp_identification _)) => apply local_table; apply rcp_id_shape
    | |- local (table _ ?fs) => unfold fs; tablelocal | _ => apply local_rcp_broadcast end|]). apply Forall_nil.
Qed.
Lemma rcp_bodies_shift ml : Forall (fun zf => shifts (snd zf)) (rcp_bodies ml).
Proof.
  unfold rcp_bodies. repeat (apply Forall_cons; [cbn [snd]; lazymatch goal with |- shifts (table _ (L_rcp_identification _)) => apply shifts_table; apply rcp_id_shape
    | |- shifts (table _ ?fs) => unfold fs; tableshift | _ => apply shifts_rcp_broadcast end|]). apply Forall_nil.
Qed.
Lemma rcp_bodies_sane ml : Forall (fun zf => saned (snd zf)) (rcp_bodies ml).
Proof.
  unfold rcp_bodies. repeat (apply Forall_cons; [cbn [snd]; lazymatch goal with |- saned (table _ (L_rcp_identification _)) => apply saned_table; apply rcp_id_shape
    | |- saned (table _ ?fs) => unfold fs; tablesane | _ => apply saned_rcp_broadcast end|]). apply Forall_nil.
Qed.
Definition rcp_sel (b : bytes) (k : Z) : option decoder :=
  let ml := le_num (slice b (k + 2) 2) in
  Some (match select (le_num (slice b k 2)) (rcp_bodies ml) with Some f => f | None => rcp_generic ml end).
Lemma local_rcp : local rcp_at.
Proof.
  apply (local_headed "RadioControlProtocol" L_RadioControlProtocol "data" rcp_sel _ 4); [intros; reflexivity|reflexivity|unfold L_RadioControlProtocol; kindslocal|reflexivity|lia| |].
  - intros b b' k Hk Ha. unfold rcp_sel. cbv zeta. rewrite !(agree_slice (k + 4) b b') by (assumption || lia). reflexivity.
  - intros b k g E. unfold rcp_sel in E. cbv zeta in E. destruct (select _ _) as [f|] eqn:Es; assert (Eg : Some g = Some g) by reflexivity.
    + assert (f = g) as <- by congruence. eapply select_local; [apply rcp_bodies_local|exact Es].
    + assert (rcp_generic (le_num (slice b (k + 2) 2)) = g) as <- by congruence. apply local_rcp_generic.
Qed.
Lemma shifts_rcp : shifts rcp_at.
Proof.
  apply (shifts_headed "RadioControlProtocol" L_RadioControlProtocol "data" rcp_sel _ 4); [intros; reflexivity|unfold L_RadioControlProtocol; kindsshift|lia| |].
  - intros p b k Hk. unfold rcp_sel. cbv zeta. rewrite slice_shift' by lia. rewrite slice_shift by lia. reflexivity.
  - intros b k g E. unfold rcp_sel in E. cbv zeta in E. destruct (select _ _) as [f|] eqn:Es.
    + assert (f = g) as <- by congruence. eapply select_shifts; [apply rcp_bodies_shift|exact Es].
    + assert (rcp_generic (le_num (slice b (k + 2) 2)) = g) as <- by congruence. apply shifts_rcp_generic.
Qed.
Lemma saned_rcp : saned rcp_at.
Proof.
  apply (saned_headed "RadioControlProtocol" L_RadioControlProtocol "data" rcp_sel _ 4); [intros; reflexivity|unfold L_RadioControlProtocol; kindssane|].
  intros b k g E. unfold rcp_sel in E. cbv zeta in E. destruct (select _ _) as [f|] eqn:Es.
    + assert (f = g) as <- by congruence. eapply select_saned; [apply rcp_bodies_sane|exact Es].
    + assert (rcp_generic (le_num (slice b (k + 2) 2)) = g) as <- by congruence. apply saned_rcp_generic.
Qed.

(** ** HDAP, HRNP, HSTRP options *)
Lemma hdap_bodies_local : Forall (fun zf => local (snd zf)) hdap_bodies.
Proof.
  unfold hdap_bodies. repeat (apply Forall_cons; [cbn [snd]|]); [apply local_rcp|apply local_lp|apply local_tmp|apply local_rrs|apply local_tp|apply local_dtp|apply local_dds|apply Forall_nil].
Qed.
Lemma hdap_bodies_sane : Forall (fun zf => saned (snd zf)) hdap_bodies.
Proof.
  unfold hdap_bodies. repeat (apply Forall_cons; [cbn [snd]|]); [apply saned_rcp|apply saned_lp|apply saned_tmp|apply saned_rrs|apply saned_tp|apply saned_dtp|apply saned_dds|apply Forall_nil].
Qed.
Lemma local_hdap : local hdap_at.
Proof.
  intros b k v e Hk H. unfold hdap_at in *. stepok H h E1. stepok H d E2. destruct d as [d e']. cbn [fst snd] in H. stepok H t E3.
  destruct (table_fields L_HyteraDmrApplicationProtocol b k h eq_refl ltac:(unfold L_HyteraDmrApplicationProtocol; kindslocal) Hk E1) as [_ [F1 F2]].
  change (fs_end L_HyteraDmrApplicationProtocol 0 / 8) with 1 in *.
  destruct (part_local "data" _ b (k + 1) d e' ltac:(lia) (select_local _ _ hdap_bodies_local) E2) as [G1 G2].
  destruct (table_fields L_hdap_trailer b e' t eq_refl ltac:(unfold L_hdap_trailer; kindslocal) ltac:(lia) E3) as [_ [T1 T2]].
  change (fs_end L_hdap_trailer 0 / 8) with 2 in *. assert (e = e' + 2) as -> by congruence. split; [lia|]. intros b' Ha.
  rewrite (F2 b' (e' + 2)) by (assumption || lia). cbn [rbind]. rewrite <- (agree_ubits (e' + 2) b b') by (assumption || lia).
  rewrite (G2 b') by (eapply agree_mono; [|exact Ha]; lia). cbn [rbind fst snd]. rewrite (T2 b' (e' + 2)) by (assumption || lia). exact H.
Qed.
Lemma saned_hdap : saned hdap_at.
Proof.
  intros b k. unfold hdap_at. apply sane_bind; [apply fields_sane; unfold L_HyteraDmrApplicationProtocol; kindssane|]. intros h _.
  apply sane_bind; [apply part_sane, select_saned, hdap_bodies_sane|]. intros d _. apply sane_bind; [apply fields_sane; unfold L_hdap_trailer; kindssane|intros; exact I].
Qed.
(** position independence, telemetry excepted *)
Lemma hdap_sel_shifts b k : ubits b (8 * k + 1) 7 <> 0x12 -> forall g, select (ubits b (8 * k + 1) 7) hdap_bodies = Some g -> shifts g.
Proof.
  intros Hn g. unfold hdap_bodies. cbn [select].
  repeat match goal with |- (if ?x =? ?c then _ else _) = _ -> _ => destruct (Z.eqb_spec x c) end; try contradiction; intros E; try discriminate E;
    match type of E with Some ?f = Some g => assert (f = g) as <- by congruence end;
    first [apply shifts_rcp|apply shifts_lp|apply shifts_tmp|apply shifts_rrs|apply shifts_dtp|apply shifts_dds].
Qed.
Lemma hdap_shift p b k : 0 <= k <= blen b -> ubits b (8 * k + 1) 7 <> 0x12 -> hdap_at (p ++ b) (blen p + k) = shifted p (hdap_at b k).
Proof.
  intros Hk Hn. unfold hdap_at. rewrite ubits_shift' by lia. rewrite fields_shift by (first [lia|unfold L_HyteraDmrApplicationProtocol; kindsshift]).
  rewrite <- Z.add_assoc, part_shift by (first [lia|apply hdap_sel_shifts, Hn]). destruct (fields b k _) as [h|y] eqn:E0; [|reflexivity]. cbn [rbind].
  destruct (table_fields L_HyteraDmrApplicationProtocol b k h eq_refl ltac:(unfold L_HyteraDmrApplicationProtocol; kindslocal) Hk E0) as [_ [F1 F2]].
  change (fs_end L_HyteraDmrApplicationProtocol 0 / 8) with 1 in *.
  destruct (part _ _ b (k + 1)) as [[d e]|y] eqn:E; [|reflexivity]. cbn [shifted rmap rbind fst snd].
  destruct (part_local "data" _ b (k + 1) d e ltac:(lia) (select_local _ _ hdap_bodies_local) E) as [G1 G2].
  rewrite fields_shift by (first [lia|unfold L_hdap_trailer; kindsshift]). destruct (fields b e L_hdap_trailer); [|reflexivity]. cbn. rewrite Z.add_assoc. reflexivity.
Qed.

Definition hrnp_sel (b : bytes) (k : Z) : option decoder := if ubits b (8 * k + 24) 8 =? 0 then Some hdap_at else None.
Lemma local_hrnp : local hrnp_at.
Proof.
  apply (local_headed "HyteraRadioNetworkProtocol" L_HyteraRadioNetworkProtocol "data" hrnp_sel _ 12); [intros; reflexivity|reflexivity|unfold L_HyteraRadioNetworkProtocol; kindslocal|reflexivity|lia| |].
  - intros b b' k Hk Ha. unfold hrnp_sel. rewrite !(agree_ubits (k + 12) b b') by (assumption || lia). reflexivity.
  - intros b k g E. unfold hrnp_sel in E. destruct (_ =? 0); [|discriminate]. assert (hdap_at = g) as <- by congruence. apply local_hdap.
Qed.
Lemma saned_hrnp : saned hrnp_at.
Proof.
  apply (saned_headed "HyteraRadioNetworkProtocol" L_HyteraRadioNetworkProtocol "data" hrnp_sel _ 12); [intros; reflexivity|unfold L_HyteraRadioNetworkProtocol; kindssane|].
  intros b k g E. unfold hrnp_sel in E. destruct (_ =? 0); [|discriminate]. assert (hdap_at = g) as <- by congruence. apply saned_hdap.
Qed.
Lemma saned_option : saned option_at.
Proof.
  intros b k. unfold option_at. cbv zeta. apply sane_bind; [apply fields_sane; unfold L_hstrp_option; kindssane|]. intros h _. apply sane_bind; [apply bytes_at_sane|intros; exact I].
Qed.
