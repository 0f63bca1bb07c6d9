(** For every stand-alone class: the result of [from_bytes] does not depend on the runtime and raises
    only parse errors.  (Support for C02, C03, C04.) *)
From Verif Require Import PyBase Runtime Codec CodecSpec CodecProofs Spec DecSpec RuntimeProofs DecProofs Enums EnumProofs Getters EtsiModel EtsiSpec EtsiProofs EtsiHeader HomebrewModel HomebrewSpec HomebrewProofs HyteraModel HyteraSpec HyteraRuns HyteraProofs HyteraProofs2 HyteraProofs3 MotorolaModel MotorolaSpec MotorolaProofs TilesProofs DecAlgebra HyteraCor HyteraCor2 HyteraCor3 AllParsers PropHytera2.
From Coq Require Import ZifyBool.
Open Scope string_scope.
Open Scope list_scope.
Open Scope Z_scope.

Definition good (p : runtime -> M pyval) : Prop :=
  (forall rt rt' b, from_bytes (p rt) b = from_bytes (p rt') b) /\ (forall rt b, sane (from_bytes (p rt) b)).

Lemma good_spec p (f : bytes -> res pyval) : (forall rt b, from_bytes (p rt) b = f b) -> (forall b, sane (f b)) -> good p.
Proof. intros H S. split; intros; rewrite !H; [reflexivity|apply S]. Qed.
Lemma good_table p cls fs : (forall rt b, from_bytes (p rt) b = object cls fs b 0) -> kinds_sane fs -> good p.
Proof. intros H S. apply (good_spec p (fun b => object cls fs b 0) H). intros b. apply sane_map, fields_sane, S. Qed.
Lemma good_dec p f : (forall rt, runs_dec (p rt) f) -> saned f -> good p.
Proof. intros H S. apply (good_spec p (stand_alone f)); [intros; apply runs_dec_from_bytes, H|]. intros b. apply sane_map, S. Qed.
Lemma good_full cls n : good (fun rt => obj cls [(n, vfull rt)]).
Proof. apply (good_spec _ (fun b => Ok (VObj cls [(n, VBytes b)]))); [intros [] b; reflexivity|intros; exact I]. Qed.
Lemma good_const v : good (fun _ => ret v).
Proof. apply (good_spec _ (fun _ => Ok v)); [reflexivity|intros; exact I]. Qed.

Lemma optional_sane n f b k : (forall g, f = Some g -> sane (g b k)) -> sane (optional n f b k).
Proof. destruct f as [g|]; cbn [optional]; [|intros; exact I]. intros H. apply sane_bind; [apply H; reflexivity|intros; exact I]. Qed.
Lemma select_in_sane z t b k : Forall (fun zf : Z * (bytes -> Z -> res pyval) => sane (snd zf b k)) t -> forall g, select z t = Some g -> sane (g b k).
Proof.
  induction 1 as [|[c f] t Hf Ht IH]; cbn [select]; [discriminate|]. intros g. destruct (z =? c); [|apply IH]. intros E. assert (f = g) as <- by congruence. exact Hf.
Qed.
Lemma object_sane cls fs b k : kinds_sane fs -> sane (object cls fs b k).
Proof. intros H. apply sane_map, fields_sane, H. Qed.
Lemma text_rest_sane e b k : sane (text_rest e b k).
Proof. unfold text_rest. destruct (decode_text e _); [exact I|reflexivity]. Qed.

Ltac tab := intros ? b; apply from_bytes_obj; seqok.
Ltac ks := match goal with |- kinds_sane ?fs => try unfold fs end; kindssane.
#[local] Hint Extern 1 (runs_at p_DmrCsbk_ServiceOptions _ _) => apply r_DmrCsbk_ServiceOptions; [lia|reflexivity] : runs.

(** * homebrew classes on their own *)
Lemma from_bytes_agrees_e (m : M pyval) (r : res pyval) b e : agrees b 0 (runM m (at_ b 0 0)) (rmap (fun v => (v, e)) r) -> from_bytes m b = r.
Proof.
  intros H. rewrite from_bytes_runM, at_init. unfold agrees in H.
  destruct r as [v|y]; cbn [rmap] in H; [destruct H as [-> _]|rewrite H]; reflexivity.
Qed.
Ltac eofs b :=
  pos; repeat first
  [ rewrite step_ret
  | rewrite step_assoc
  | erewrite step_ok by (apply run_is_eof; zside); change (0 / 8) with 0; rewrite ?Z.add_0_r
  | erewrite step_ok by (rewrite run_read_u1 by zside; rewrite (proj2 (fits_iff _ _ _)) by lia; reflexivity); pos
  | match goal with |- context [blen b <=? ?p] => destruct (Z.leb_spec (blen b) p); cbn [negb]; cbv iota; unfold some, none, vint end
  ].
Ltac dmrd0 b :=
  apply (from_bytes_agrees_e _ _ _ (Z.min (blen b) 51)); pose proof (blen_nonneg b);
  rewrite rmap_rbind; flds; norm_lits;
  repeat match goal with H : fits _ _ _ = true |- _ => apply fits_iff in H end;
  eofs b; cbn [rmap];
  repeat match goal with |- context [?p <? blen b] => destruct (Z.ltb_spec p (blen b)); try lia end;
  match goal with |- agrees _ _ (runM (ret _) (at_ b ?e 0)) _ => replace (Z.min (blen b) 51) with e by lia end; leaf.
Lemma dmrd_hb0 rt b : from_bytes (p_Homebrew2015_TypeDmrData rt) b = Homebrew2015_dmrd b 0.
Proof. unfold p_Homebrew2015_TypeDmrData, Homebrew2015_dmrd, L_Homebrew2015_TypeDmrData. dmrd0 b. Qed.
Lemma dmrd_mm0 rt b : from_bytes (p_Mmdvm2020_TypeDmrData rt) b = Mmdvm2020_dmrd b 0.
Proof. unfold p_Mmdvm2020_TypeDmrData, Mmdvm2020_dmrd, L_Mmdvm2020_TypeDmrData. dmrd0 b. Qed.

Section H.
Context (rt : runtime).
Notation value m s := (rmap fst (runM m s)).
Lemma ack_hb0 b : value (p_Homebrew2015_TypeMasterRepeaterAck rt) (at_ b 0 0) = Homebrew2015_ack b 0.
Proof.
  unfold p_Homebrew2015_TypeMasterRepeaterAck, Homebrew2015_ack, L_Homebrew2015_TypeMasterRepeaterAck. unf.
  eassert (H : runs_at (expect_bytes rt (B [67; 75]) "/types/type_master_repeater_ack/seq/0") 0 _) by runs1.
  rewrite (step_runs _ _ b 0 0 _ H) by zside.
  cbn [fields f_off f_kind f_name]. destruct (decode b 0 0 _) as [v|e]; [|reflexivity].
  cbn [kwidth]. change (blen (B [67;75])) with 2. norm_lits. spec_cbn.
  fit; [|cbn; fit_lia; reflexivity]. rd1. fit.
  all: repeat fit_lia; cbn [rbind]; repeat rd1; try reflexivity.
  destruct (Z.leb_spec (blen b) 6); destruct (Z.ltb_spec 6 (blen b)); try lia; cbn [negb rbind].
  - repeat rd1. reflexivity.
  - repeat rd1. destruct (fits b 0 80); repeat rd1; reflexivity.
Qed.
Lemma config_hb0 b : value (p_Homebrew2015_TypeRepeaterConfiguration rt) (at_ b 0 0) = Homebrew2015_config b 0.
Proof.
  unfold p_Homebrew2015_TypeRepeaterConfiguration, Homebrew2015_config.
  match goal with |- context [obj ?c ?l] => let l' := eval cbv [removelast] in (removelast l) in
    change (obj c l) with (obj c (l' ++ [("unparsed_data", vstr_full rt ASCII)])) end.
  erewrite (run_obj_text rt _ _ _ L_Homebrew2015_TypeRepeaterConfiguration); [|seqok|discriminate|lia|reflexivity|cbn; lia].
  change (fs_end L_Homebrew2015_TypeRepeaterConfiguration 0 / 8) with 298.
  match goal with |- rmap _ match ?r with _ => _ end = _ => destruct r; reflexivity end.
Qed.
Lemma config_mm0 b : value (p_Mmdvm2020_TypeRepeaterConfiguration rt) (at_ b 0 0) = Mmdvm2020_config b 0.
Proof.
  unfold p_Mmdvm2020_TypeRepeaterConfiguration, Mmdvm2020_config.
  match goal with |- context [obj ?c ?l] => let l' := eval cbv [removelast] in (removelast l) in
    change (obj c l) with (obj c (l' ++ [("unparsed_data", vstr_full rt ASCII)])) end.
  erewrite (run_obj_text rt _ _ _ L_Mmdvm2020_TypeRepeaterConfiguration); [|seqok|discriminate|lia|reflexivity|cbn; lia].
  change (fs_end L_Mmdvm2020_TypeRepeaterConfiguration 0 / 8) with 298.
  match goal with |- rmap _ match ?r with _ => _ end = _ => destruct r; reflexivity end.
Qed.
Lemma options_mm0 b : value (p_Mmdvm2020_TypeRepeaterOptions rt) (at_ b 0 0) = Mmdvm2020_options b 0.
Proof.
  unfold p_Mmdvm2020_TypeRepeaterOptions, Mmdvm2020_options.
  match goal with |- context [obj ?c ?l] => let l' := eval cbv [removelast] in (removelast l) in
    change (obj c l) with (obj c (l' ++ [("options", vstr_full rt ASCII)])) end.
  erewrite (run_obj_text rt _ _ _ L_Mmdvm2020_TypeRepeaterOptions); [|seqok|discriminate|lia|reflexivity|cbn; lia].
  change (fs_end L_Mmdvm2020_TypeRepeaterOptions 0 / 8) with 4.
  match goal with |- rmap _ match ?r with _ => _ end = _ => destruct r; reflexivity end.
Qed.
Lemma options_hb0 b : value (p_Homebrew2015_TypeRepeaterOptions rt) (at_ b 0 0) =
  (let* h := fields b 0 L_Mmdvm2020_TypeRepeaterOptions in
   let* t := text_rest ASCII b (0 + 4) in Ok (VObj "Homebrew2015.TypeRepeaterOptions" (h ++ [("options", t)]))).
Proof.
  unfold p_Homebrew2015_TypeRepeaterOptions.
  match goal with |- context [obj ?c ?l] => let l' := eval cbv [removelast] in (removelast l) in
    change (obj c l) with (obj c (l' ++ [("options", vstr_full rt ASCII)])) end.
  erewrite (run_obj_text rt _ _ _ L_Mmdvm2020_TypeRepeaterOptions); [|seqok|discriminate|lia|reflexivity|cbn; lia].
  change (fs_end L_Mmdvm2020_TypeRepeaterOptions 0 / 8) with 4.
  match goal with |- rmap _ match ?r with _ => _ end = _ => destruct r; reflexivity end.
Qed.
End H.

(** bit reads raise only parse errors, wherever the stream stands *)
Definition safe {A} (m : M A) : Prop := forall s, sane (fst (m s)).
Lemma safe_ret {A} (a : A) : safe (ret a).
Proof. intros s. exact I. Qed.
Lemma safe_bind {A B} (m : M A) (k : A -> M B) : safe m -> (forall a, safe (k a)) -> safe (bind m k).
Proof. intros H1 H2 s. unfold bind. specialize (H1 s). destruct (m s) as [[a|e] s1]; [apply H2|exact H1]. Qed.
Lemma safe_raw n : safe (raw_read_bytes n).
Proof. intros s. unfold raw_read_bytes. destruct (n <? 0); [reflexivity|]. destruct (io_read n s) as [g s']. destruct (_ <? _); [reflexivity|exact I]. Qed.
Lemma safe_bits n : safe (read_bits n).
Proof.
  intros s. unfold read_bits. cbv zeta. destruct (0 <? _); [|exact I]. match goal with |- context [raw_read_bytes ?k ?t] => pose proof (safe_raw k t) as H; destruct (raw_read_bytes k t) as [[x|e] t'] end; [exact I|exact H].
Qed.

(** * sanity of the specifications *)
Lemma sane_csbk b : sane (csbk_spec b).
Proof.
  unfold csbk_spec. apply sane_bind; [apply fields_sane; ks|]. intros h _. apply sane_bind; [|intros; exact I].
  apply optional_sane. apply select_in_sane. unfold csbk_bodies. repeat (apply Forall_cons; [cbn [snd]; apply object_sane; ks|]). apply Forall_nil.
Qed.
Lemma sane_udp b : sane (udp_spec b).
Proof.
  unfold udp_spec. apply sane_bind; [apply fields_sane; ks|]. intros h _. cbv zeta.
  apply sane_bind; [destruct (_ =? 0); [apply fields_sane; kindssane|exact I]|]. intros s _.
  apply sane_bind; [destruct (ubits b 33 7 =? 0); [apply fields_sane; kindssane|exact I]|intros; exact I].
Qed.
Lemma sane_flc b : sane (flc_spec b).
Proof.
  unfold flc_spec. apply sane_bind; [apply fields_sane; ks|]. intros h _. cbv zeta. apply sane_bind.
  - apply optional_sane. apply select_in_sane. unfold flc_bodies. repeat (apply Forall_cons; [cbn [snd]; apply object_sane; ks|]). apply Forall_nil.
  - intros d _. apply sane_bind; [|intros; exact I]. destruct (blen b <=? 10); [apply fields_sane; kindssane|exact I].
Qed.
Lemma sane_hb_ack b k : sane (Homebrew2015_ack b k).
Proof. unfold Homebrew2015_ack. apply sane_bind; [apply fields_sane; ks|]. intros h _. apply sane_bind; [destruct (_ <? _); [apply fields_sane; kindssane|exact I]|intros; exact I]. Qed.
Lemma sane_hb_dmrd b k : sane (Homebrew2015_dmrd b k).
Proof. unfold Homebrew2015_dmrd. apply sane_bind; [apply fields_sane; ks|intros; exact I]. Qed.
Lemma sane_mm_dmrd b k : sane (Mmdvm2020_dmrd b k).
Proof. unfold Mmdvm2020_dmrd. apply sane_bind; [apply fields_sane; ks|intros; exact I]. Qed.
Lemma sane_hb_config b k : sane (Homebrew2015_config b k).
Proof. unfold Homebrew2015_config. apply sane_bind; [apply fields_sane; ks|]. intros h _. apply sane_bind; [apply text_rest_sane|intros; exact I]. Qed.
Lemma sane_mm_config b k : sane (Mmdvm2020_config b k).
Proof. unfold Mmdvm2020_config. apply sane_bind; [apply fields_sane; ks|]. intros h _. apply sane_bind; [apply text_rest_sane|intros; exact I]. Qed.
Lemma sane_mm_options b k : sane (Mmdvm2020_options b k).
Proof. unfold Mmdvm2020_options. apply sane_bind; [apply fields_sane; ks|]. intros h _. apply sane_bind; [apply text_rest_sane|intros; exact I]. Qed.
Lemma sane_cmd f b : (forall b k, sane (f b k)) -> sane (cmd f b).
Proof. intros H. unfold cmd. apply sane_bind; [apply H|intros; exact I]. Qed.
Lemma sane_find p t b : Forall (fun nf => sane (snd nf b)) t -> sane (match find_command p t with Some f => f b | None => Ok [] end).
Proof. induction 1 as [|[n f] t Hf Ht IH]; cbn [find_command]; [exact I|]. destruct (bytes_eqb p (blit n)); [exact Hf|exact IH]. Qed.
Ltac cmdsane := cbn [snd]; lazymatch goal with
  | |- sane (cmd ?f _) => apply sane_cmd; intros; lazymatch f with
      | object _ _ => apply object_sane; ks
      | Homebrew2015_ack => apply sane_hb_ack
      | Homebrew2015_dmrd => apply sane_hb_dmrd
      | Mmdvm2020_dmrd => apply sane_mm_dmrd
      | Mmdvm2020_options => apply sane_mm_options
      end
  | |- _ => idtac end.
Lemma sane_homebrew b : sane (Homebrew2015_spec b).
Proof.
  unfold Homebrew2015_spec. destruct (blen b <? 4); [reflexivity|]. destruct (decode_text UTF8 _); [|reflexivity]. apply sane_bind; [|intros; exact I].
  apply sane_find. unfold Homebrew2015_commands. repeat (apply Forall_cons; [cmdsane|]); [|apply Forall_nil].
  unfold Homebrew2015_config_or_closing. destruct (blen b <=? 4); [reflexivity|]. destruct (decode_text ASCII _); [|reflexivity].
  apply sane_bind; [|intros; exact I]. destruct (bytes_eqb _ _); [apply object_sane; ks|apply sane_hb_config].
Qed.
Lemma sane_mmdvm b : sane (Mmdvm2020_spec b).
Proof.
  unfold Mmdvm2020_spec. destruct (blen b <? 4); [reflexivity|]. destruct (decode_text ASCII _); [|reflexivity]. apply sane_bind; [|intros; exact I].
  apply sane_find. unfold Mmdvm2020_commands. repeat (apply Forall_cons; [cmdsane|]); [|apply Forall_nil].
  unfold Mmdvm2020_config_or_closing. destruct (blen b <=? 4); [reflexivity|]. destruct (decode_text ASCII _); [|reflexivity].
  apply sane_bind; [|intros; exact I]. destruct (bytes_eqb _ _); [apply object_sane; ks|apply sane_mm_config].
Qed.
Lemma sane_options b k r : options b k r -> sane r.
Proof. induction 1 as [| |k x H]; [exact I|apply sane_map; assumption|]. pose proof (saned_option b k) as S. rewrite H in S. exact S. Qed.
Lemma sane_messages b k r : messages b k r -> sane r.
Proof. induction 1 as [| |k x Hk H]; [exact I|apply sane_map; assumption|]. pose proof (saned_hdap b k) as S. rewrite H in S. exact S. Qed.
Lemma sane_hstrp b r : hstrp b r -> sane r.
Proof.
  intros H. inversion H as [x Hx E|h ro rd m ho ct hb Hh Ho Hd E]; subst.
  - assert (S : sane (fields b 0 L_HyteraSimpleTransportReliabilityProtocol)) by (apply fields_sane; ks). rewrite Hx in S. exact S.
  - apply sane_bind.
    + subst m ho hb. cbv beta in *. destruct ((6 <? blen b) && bit b 26 && negb (bit b 30)); [|subst ro; exact I].
      destruct Ho as [x [Hx ->]]. apply sane_map. exact (sane_options _ _ _ Hx).
    + intros [ao k] ->. specialize (Hd ao k eq_refl). apply sane_bind; [|intros; exact I]. subst m ct. cbv beta in *.
      destruct (k <? blen b); [|subst rd; exact I]. destruct (bit b 27 || bit b 28 || bit b 29); [subst rd; exact I|].
      destruct Hd as [x [Hx ->]]. apply sane_map. exact (sane_messages _ _ _ Hx).
Qed.
Lemma sane_ipsc b : sane (ipsc_spec b).
Proof. unfold ipsc_spec. apply sane_bind; [apply fields_sane; ks|intros; exact I]. Qed.
Lemma sane_heartbeat b : sane (heartbeat_spec b).
Proof. unfold heartbeat_spec. apply sane_bind; [|intros; exact I]. destruct (blen b =? 1); [apply object_sane; ks|]. destruct (blen b =? 20); [apply object_sane; ks|exact I]. Qed.
Lemma saned_rtp_fixed : saned rtp_fixed_header.
Proof.
  intros b k. unfold rtp_fixed_header. destruct (_ <? _); [reflexivity|]. cbv zeta. destruct (negb _); [reflexivity|].
  apply sane_bind; [apply fields_sane; ks|]. intros h _. destruct (_ <? _); [reflexivity|exact I].
Qed.
Lemma sane_rtp b : sane (rtp_spec b).
Proof.
  unfold rtp_spec. apply sane_bind; [apply saned_rtp_fixed|]. intros f _. apply sane_bind.
  - apply part_sane. intros g Hg. destruct (bit b 3); [|discriminate]. assert (g = table "RealTimeTransportProtocol.HeaderExtension" L_RealTimeTransportProtocol_HeaderExtension) as -> by congruence. apply saned_table. ks.
  - intros e _. cbv zeta. match goal with |- sane (if ?c then _ else _) => destruct c end; [reflexivity|exact I].
Qed.
Lemma sized_sane l n b k : sane (sized l n b k).
Proof. unfold sized. destruct (_ <? _); [reflexivity|]. cbv zeta. apply sane_bind; [apply bytes_at_sane|intros; exact I]. Qed.
Lemma saned_ars_bodies e a : Forall (fun zf => saned (snd zf)) (ars_bodies e a).
Proof.
  unfold ars_bodies. apply Forall_cons; [|apply Forall_cons; [|apply Forall_cons; [|apply Forall_cons; [|apply Forall_nil]]]]; cbn [snd].
  - intros b k. unfold ars_registration. apply sane_bind.
    { apply part_sane. intros g Hg. destruct e; [|discriminate]. injection Hg as <-. apply saned_table. ks. }
    intros h _. apply sane_bind; [apply sized_sane|]. intros d _. apply sane_bind; [apply sized_sane|]. intros u _. apply sane_bind; [apply sized_sane|]. intros; exact I.
  - apply saned_table. kindssane.
  - apply saned_table. kindssane.
  - intros b k. unfold ars_acknowledgement. apply sane_bind; [|intros; exact I]. destruct (e && a); [|destruct e; [|exact I]].
    all: apply part_sane; intros g Hg; injection Hg as <-; apply saned_table; ks.
Qed.
Lemma sane_ars b : sane (ars_spec b).
Proof. unfold ars_spec. apply sane_bind; [apply fields_sane; ks|]. intros h _. apply sane_bind; [apply part_sane, select_saned, saned_ars_bodies|intros; exact I]. Qed.
Lemma saned_mot_ack_header two : saned (table "TextMessageProtocol.TmsAcknowledgementHeaderSequenceNumber" (L_mot_ack_header two)).
Proof. apply saned_table. unfold L_mot_ack_header. kindssane. Qed.
Lemma saned_mot_bodies e : Forall (fun zf => saned (snd zf)) (mot_bodies e).
Proof.
  assert (T : saned (mot_text e)).
  { intros b k. unfold mot_text. apply sane_bind.
    - destruct e; [|exact I]. apply sane_bind; [apply fields_sane; unfold L_mot_text_header; kindssane|intros; exact I].
    - intros h _. destruct (decode_text UTF16LE _); [exact I|reflexivity]. }
  unfold mot_bodies. apply Forall_cons; [|apply Forall_cons; [|apply Forall_cons; [exact T|apply Forall_cons; [exact T|apply Forall_nil]]]]; cbn [snd].
  - intros b k. unfold mot_availability. apply sane_bind; [|intros; exact I]. apply part_sane. intros g Hg. destruct e; [|discriminate]. injection Hg as <-. apply saned_table. ks.
  - intros b k. unfold mot_acknowledgement. apply sane_bind; [|intros; exact I]. apply part_sane. intros g Hg. destruct e; [|discriminate].
    assert (E : table "TextMessageProtocol.TmsAcknowledgementHeaderSequenceNumber" (L_mot_ack_header (bit b (8 * k))) = g) by congruence. rewrite <- E. apply saned_mot_ack_header.
Qed.
Lemma sane_mot_tmp b : sane (mot_tmp_spec b).
Proof.
  unfold mot_tmp_spec. apply sane_bind; [apply fields_sane; ks|]. intros h _. apply sane_bind; [apply sized_sane|]. intros a _.
  apply sane_bind; [apply part_sane, select_saned, saned_mot_bodies|intros; exact I].
Qed.
Lemma saned_var cls : saned (var_at cls).
Proof. intros b k. unfold var_at. destruct (_ <=? _); [reflexivity|exact I]. Qed.
Lemma saned_two cls n1 n2 f1 f2 : saned f1 -> saned f2 -> saned (two_vars cls n1 n2 f1 f2).
Proof. intros H1 H2 b k. unfold two_vars. apply sane_bind; [apply H1|]. intros x _. apply sane_bind; [apply H2|intros; exact I]. Qed.
Lemma saned_opaque : saned opaque_at.
Proof. intros b k. unfold opaque_at. destruct (_ <? _); [reflexivity|]. cbv zeta. apply sane_bind; [apply bytes_at_sane|intros; exact I]. Qed.
Lemma saned_cdt : saned cdt_reference_at.
Proof. intros b k. unfold cdt_reference_at. apply sane_bind; [apply saned_var|intros; exact I]. Qed.
Lemma saned_element : saned lrrp_element_at.
Proof.
  intros b k. unfold lrrp_element_at. apply sane_bind; [apply fields_sane; kindssane|]. intros h _. apply sane_bind; [|intros; exact I].
  apply part_sane, select_saned. apply Forall_cons; [apply saned_opaque|]. apply Forall_cons; [apply saned_table; ks|]. apply Forall_cons; [apply saned_cdt|apply Forall_nil].
Qed.
Lemma saned_request : saned lrrp_request_at.
Proof. intros b k. unfold lrrp_request_at. apply sane_bind; [apply saned_element|intros; exact I]. Qed.
Lemma saned_document : saned document_at.
Proof.
  intros b k. unfold document_at. apply sane_bind; [apply fields_sane; kindssane|]. intros h _. apply sane_bind; [apply saned_var|]. intros n _.
  apply sane_bind; [|intros; exact I]. apply part_sane. intros g Hg. destruct (_ =? 5); [|discriminate]. assert (lrrp_request_at = g) as <- by congruence. apply saned_request.
Qed.
Lemma sane_mbxml b : sane (mbxml_spec b).
Proof. unfold mbxml_spec. apply sane_bind; [apply saned_document|]. intros d _. destruct (_ <? _); [exact I|reflexivity]. Qed.

(** * every class *)
Lemma good_p_DmrCsbk_NegativeAckResponseData : good (fun _ => p_DmrCsbk_NegativeAckResponseData).
Proof. apply (good_table _ "DmrCsbk.NegativeAckResponseData" L_DmrCsbk_NegativeAckResponseData); [tab|ks]. Qed.
Lemma good_p_DmrCsbk_ServiceOptions : good (fun _ => p_DmrCsbk_ServiceOptions).
Proof. apply (good_table _ "DmrCsbk.ServiceOptions" L_DmrCsbk_ServiceOptions); [tab|ks]. Qed.
Lemma good_p_DmrCsbk_UnitToUnitVoiceRequestData : good (fun _ => p_DmrCsbk_UnitToUnitVoiceRequestData).
Proof. apply (good_table _ "DmrCsbk.UnitToUnitVoiceRequestData" L_DmrCsbk_UnitToUnitVoiceRequestData); [tab|ks]. Qed.
Lemma good_p_DmrCsbk_PreambleData : good (fun _ => p_DmrCsbk_PreambleData).
Proof. apply (good_table _ "DmrCsbk.PreambleData" L_DmrCsbk_PreambleData); [tab|ks]. Qed.
Lemma good_p_DmrCsbk_ChannelTimingData : good (fun _ => p_DmrCsbk_ChannelTimingData).
Proof. apply (good_table _ "DmrCsbk.ChannelTimingData" L_DmrCsbk_ChannelTimingData); [tab|ks]. Qed.
Lemma good_p_DmrCsbk_BsOutboundActivationData : good (fun _ => p_DmrCsbk_BsOutboundActivationData).
Proof. apply (good_table _ "DmrCsbk.BsOutboundActivationData" L_DmrCsbk_BsOutboundActivationData); [tab|ks]. Qed.
Lemma good_p_DmrCsbk_UnitToUnitVoiceAnswerData : good (fun _ => p_DmrCsbk_UnitToUnitVoiceAnswerData).
Proof. apply (good_table _ "DmrCsbk.UnitToUnitVoiceAnswerData" L_DmrCsbk_UnitToUnitVoiceAnswerData); [tab|ks]. Qed.
Lemma good_p_DmrCsbk : good (fun _ => p_DmrCsbk).
Proof. apply (good_spec _ csbk_spec); [intros _; exact csbk_ok|exact sane_csbk]. Qed.
Lemma good_p_DmrData_Rate1LastBlockUnconfirmed : good p_DmrData_Rate1LastBlockUnconfirmed.
Proof. apply (good_table _ "DmrData.Rate1LastBlockUnconfirmed" L_DmrData_Rate1LastBlockUnconfirmed); [tab|ks]. Qed.
Lemma good_p_DmrData_Rate12LastBlockConfirmed : good p_DmrData_Rate12LastBlockConfirmed.
Proof. apply (good_table _ "DmrData.Rate12LastBlockConfirmed" L_DmrData_Rate12LastBlockConfirmed); [tab|ks]. Qed.
Lemma good_p_DmrData_Rate12Confirmed : good p_DmrData_Rate12Confirmed.
Proof. apply (good_table _ "DmrData.Rate12Confirmed" L_DmrData_Rate12Confirmed); [tab|ks]. Qed.
Lemma good_p_DmrData_Rate34LastBlockUnconfirmed : good p_DmrData_Rate34LastBlockUnconfirmed.
Proof. apply (good_table _ "DmrData.Rate34LastBlockUnconfirmed" L_DmrData_Rate34LastBlockUnconfirmed); [tab|ks]. Qed.
Lemma good_p_DmrData_Rate1LastBlockConfirmed : good p_DmrData_Rate1LastBlockConfirmed.
Proof. apply (good_table _ "DmrData.Rate1LastBlockConfirmed" L_DmrData_Rate1LastBlockConfirmed); [tab|ks]. Qed.
Lemma good_p_DmrData_Rate1Unconfirmed : good p_DmrData_Rate1Unconfirmed.
Proof. apply (good_table _ "DmrData.Rate1Unconfirmed" L_DmrData_Rate1Unconfirmed); [tab|ks]. Qed.
Lemma good_p_DmrData_UdtLastBlock : good p_DmrData_UdtLastBlock.
Proof. apply (good_table _ "DmrData.UdtLastBlock" L_DmrData_UdtLastBlock); [tab|ks]. Qed.
Lemma good_p_DmrData_Rate34Confirmed : good p_DmrData_Rate34Confirmed.
Proof. apply (good_table _ "DmrData.Rate34Confirmed" L_DmrData_Rate34Confirmed); [tab|ks]. Qed.
Lemma good_p_DmrData_Rate34LastBlockConfirmed : good p_DmrData_Rate34LastBlockConfirmed.
Proof. apply (good_table _ "DmrData.Rate34LastBlockConfirmed" L_DmrData_Rate34LastBlockConfirmed); [tab|ks]. Qed.
Lemma good_p_DmrData_Rate34Unconfirmed : good p_DmrData_Rate34Unconfirmed.
Proof. apply (good_table _ "DmrData.Rate34Unconfirmed" L_DmrData_Rate34Unconfirmed); [tab|ks]. Qed.
Lemma good_p_DmrData_Rate12LastBlockUnconfirmed : good p_DmrData_Rate12LastBlockUnconfirmed.
Proof. apply (good_table _ "DmrData.Rate12LastBlockUnconfirmed" L_DmrData_Rate12LastBlockUnconfirmed); [tab|ks]. Qed.
Lemma good_p_DmrData_Rate1Confirmed : good p_DmrData_Rate1Confirmed.
Proof. apply (good_table _ "DmrData.Rate1Confirmed" L_DmrData_Rate1Confirmed); [tab|ks]. Qed.
Lemma good_p_DmrData_Rate12Unconfirmed : good p_DmrData_Rate12Unconfirmed.
Proof. apply (good_table _ "DmrData.Rate12Unconfirmed" L_DmrData_Rate12Unconfirmed); [tab|ks]. Qed.
Lemma good_p_DmrData : good (fun _ => p_DmrData).
Proof. apply (good_table _ "DmrData" []); [intros; reflexivity|kindssane]. Qed.
Lemma good_p_DmrDataHeader_DataHeaderShortRaw : good p_DmrDataHeader_DataHeaderShortRaw.
Proof. apply (good_table _ "DmrDataHeader.DataHeaderShortRaw" L_DmrDataHeader_DataHeaderShortRaw); [tab|ks]. Qed.
Lemma good_p_DmrDataHeader_DataHeaderProprietary : good p_DmrDataHeader_DataHeaderProprietary.
Proof. apply (good_table _ "DmrDataHeader.DataHeaderProprietary" L_DmrDataHeader_DataHeaderProprietary); [tab|ks]. Qed.
Lemma good_p_DmrDataHeader_DataHeaderUndefined : good p_DmrDataHeader_DataHeaderUndefined.
Proof. apply good_full. Qed.
Lemma good_p_DmrDataHeader_DataHeaderShortStatusPrecoded : good p_DmrDataHeader_DataHeaderShortStatusPrecoded.
Proof. apply (good_table _ "DmrDataHeader.DataHeaderShortStatusPrecoded" L_DmrDataHeader_DataHeaderShortStatusPrecoded); [tab|ks]. Qed.
Lemma good_p_DmrDataHeader_DataHeaderResponse : good p_DmrDataHeader_DataHeaderResponse.
Proof. apply (good_table _ "DmrDataHeader.DataHeaderResponse" L_DmrDataHeader_DataHeaderResponse); [tab|ks]. Qed.
Lemma good_p_DmrDataHeader_DataHeaderConfirmed : good p_DmrDataHeader_DataHeaderConfirmed.
Proof. apply (good_table _ "DmrDataHeader.DataHeaderConfirmed" L_DmrDataHeader_DataHeaderConfirmed); [tab|ks]. Qed.
Lemma good_p_DmrDataHeader_DataHeaderUnconfirmed : good p_DmrDataHeader_DataHeaderUnconfirmed.
Proof. apply (good_table _ "DmrDataHeader.DataHeaderUnconfirmed" L_DmrDataHeader_DataHeaderUnconfirmed); [tab|ks]. Qed.
Lemma good_p_DmrDataHeader_DataHeaderShortDefined : good p_DmrDataHeader_DataHeaderShortDefined.
Proof. apply (good_table _ "DmrDataHeader.DataHeaderShortDefined" L_DmrDataHeader_DataHeaderShortDefined); [tab|ks]. Qed.
Lemma good_p_DmrDataHeader_DataHeaderUdt : good p_DmrDataHeader_DataHeaderUdt.
Proof. apply (good_table _ "DmrDataHeader.DataHeaderUdt" L_DmrDataHeader_DataHeaderUdt); [tab|ks]. Qed.
Lemma good_p_DmrDataHeader : good (fun _ => p_DmrDataHeader).
Proof. apply (good_table _ "DmrDataHeader" L_DmrDataHeader); [tab|ks]. Qed.
Lemma good_p_DmrIpUdp_UdpIpv4CompressedHeader : good p_DmrIpUdp_UdpIpv4CompressedHeader.
Proof. apply (good_spec _ udp_spec); [exact udp_ok|exact sane_udp]. Qed.
Lemma good_p_DmrIpUdp : good (fun _ => p_DmrIpUdp).
Proof. apply (good_table _ "DmrIpUdp" []); [intros; reflexivity|kindssane]. Qed.
Lemma good_p_FullLinkControl_GpsInfoLcPdu : good (fun _ => p_FullLinkControl_GpsInfoLcPdu).
Proof. apply (good_table _ "FullLinkControl.GpsInfoLcPdu" L_FullLinkControl_GpsInfoLcPdu); [tab|ks]. Qed.
Lemma good_p_FullLinkControl_GroupVoiceChannelUser : good (fun _ => p_FullLinkControl_GroupVoiceChannelUser).
Proof. apply (good_table _ "FullLinkControl.GroupVoiceChannelUser" L_FullLinkControl_GroupVoiceChannelUser); [tab|ks]. Qed.
Lemma good_p_FullLinkControl_UnitToUnitVoiceChannelUser : good (fun _ => p_FullLinkControl_UnitToUnitVoiceChannelUser).
Proof. apply (good_table _ "FullLinkControl.UnitToUnitVoiceChannelUser" L_FullLinkControl_UnitToUnitVoiceChannelUser); [tab|ks]. Qed.
Lemma good_p_FullLinkControl_TalkerAliasHeader : good (fun _ => p_FullLinkControl_TalkerAliasHeader).
Proof. apply (good_table _ "FullLinkControl.TalkerAliasHeader" L_FullLinkControl_TalkerAliasHeader); [tab|ks]. Qed.
Lemma good_p_FullLinkControl_TalkerAliasContinuation : good (fun _ => p_FullLinkControl_TalkerAliasContinuation).
Proof. apply (good_table _ "FullLinkControl.TalkerAliasContinuation" L_FullLinkControl_TalkerAliasContinuation); [tab|ks]. Qed.
Lemma good_p_FullLinkControl : good p_FullLinkControl.
Proof. apply (good_spec _ flc_spec); [exact flc_ok|exact sane_flc]. Qed.
Lemma good_p_Homebrew2015_TypeMasterPing : good p_Homebrew2015_TypeMasterPing.
Proof. apply (good_table _ "Homebrew2015.TypeMasterPing" L_Homebrew2015_TypeMasterPing); [tab|ks]. Qed.
Lemma good_p_Homebrew2015_TypeRepeaterPong : good p_Homebrew2015_TypeRepeaterPong.
Proof. apply (good_table _ "Homebrew2015.TypeRepeaterPong" L_Homebrew2015_TypeRepeaterPong); [tab|ks]. Qed.
Lemma good_p_Homebrew2015_TypeRepeaterLoginResponse : good p_Homebrew2015_TypeRepeaterLoginResponse.
Proof. apply (good_table _ "Homebrew2015.TypeRepeaterLoginResponse" L_Homebrew2015_TypeRepeaterLoginResponse); [tab|ks]. Qed.
Lemma good_p_Homebrew2015_TypeRepeaterLoginRequest : good p_Homebrew2015_TypeRepeaterLoginRequest.
Proof. apply (good_table _ "Homebrew2015.TypeRepeaterLoginRequest" L_Homebrew2015_TypeRepeaterLoginRequest); [tab|ks]. Qed.
Lemma good_p_Homebrew2015_TypeMasterNotAccept : good p_Homebrew2015_TypeMasterNotAccept.
Proof. apply (good_table _ "Homebrew2015.TypeMasterNotAccept" L_Homebrew2015_TypeMasterNotAccept); [tab|ks]. Qed.
Lemma good_p_Homebrew2015_TypeMasterRepeaterAck : good p_Homebrew2015_TypeMasterRepeaterAck.
Proof. apply (good_spec _ (fun b => Homebrew2015_ack b 0)); [intros; rewrite from_bytes_value; apply ack_hb0|intros; apply sane_hb_ack]. Qed.
Lemma good_p_Homebrew2015_TypeMasterClosing : good p_Homebrew2015_TypeMasterClosing.
Proof. apply (good_table _ "Homebrew2015.TypeMasterClosing" L_Homebrew2015_TypeMasterClosing); [tab|ks]. Qed.
Lemma good_p_Homebrew2015_TypeDmrData : good p_Homebrew2015_TypeDmrData.
Proof. apply (good_spec _ (fun b => Homebrew2015_dmrd b 0)); [intros; apply dmrd_hb0|intros; apply sane_hb_dmrd]. Qed.
Lemma good_p_Homebrew2015_TypeRepeaterOptions : good p_Homebrew2015_TypeRepeaterOptions.
Proof. eapply good_spec; [intros; rewrite from_bytes_value; apply options_hb0|]. intros b. cbv beta. apply sane_bind; [apply fields_sane; ks|]. intros h _. apply sane_bind; [apply text_rest_sane|intros; exact I]. Qed.
Lemma good_p_Homebrew2015_TypeRepeaterClosing : good p_Homebrew2015_TypeRepeaterClosing.
Proof. apply (good_table _ "Homebrew2015.TypeRepeaterClosing" L_Homebrew2015_TypeRepeaterClosing); [tab|ks]. Qed.
Lemma good_p_Homebrew2015_TypeRepeaterConfiguration : good p_Homebrew2015_TypeRepeaterConfiguration.
Proof. apply (good_spec _ (fun b => Homebrew2015_config b 0)); [intros; rewrite from_bytes_value; apply config_hb0|intros; apply sane_hb_config]. Qed.
Lemma good_p_Homebrew2015 : good p_Homebrew2015.
Proof. apply (good_spec _ Homebrew2015_spec); [exact homebrew_ok|exact sane_homebrew]. Qed.
Lemma good_p_Mmdvm2020_TypeMasterPong : good p_Mmdvm2020_TypeMasterPong.
Proof. apply (good_table _ "Mmdvm2020.TypeMasterPong" L_Mmdvm2020_TypeMasterPong); [tab|ks]. Qed.
Lemma good_p_Mmdvm2020_TypeRadioPosition : good (fun _ => p_Mmdvm2020_TypeRadioPosition).
Proof. apply (good_table _ "Mmdvm2020.TypeRadioPosition" L_Mmdvm2020_TypeRadioPosition); [tab|ks]. Qed.
Lemma good_p_Mmdvm2020_TypeTalkerAlias : good p_Mmdvm2020_TypeTalkerAlias.
Proof. apply (good_table _ "Mmdvm2020.TypeTalkerAlias" L_Mmdvm2020_TypeTalkerAlias); [tab|ks]. Qed.
Lemma good_p_Mmdvm2020_TypeRepeaterLoginResponse : good p_Mmdvm2020_TypeRepeaterLoginResponse.
Proof. apply (good_table _ "Mmdvm2020.TypeRepeaterLoginResponse" L_Mmdvm2020_TypeRepeaterLoginResponse); [tab|ks]. Qed.
Lemma good_p_Mmdvm2020_TypeRepeaterLoginRequest : good p_Mmdvm2020_TypeRepeaterLoginRequest.
Proof. apply (good_table _ "Mmdvm2020.TypeRepeaterLoginRequest" L_Mmdvm2020_TypeRepeaterLoginRequest); [tab|ks]. Qed.
Lemma good_p_Mmdvm2020_TypeMasterNotAccept : good p_Mmdvm2020_TypeMasterNotAccept.
Proof. apply (good_table _ "Mmdvm2020.TypeMasterNotAccept" L_Mmdvm2020_TypeMasterNotAccept); [tab|ks]. Qed.
Lemma good_p_Mmdvm2020_TypeUnknown : good p_Mmdvm2020_TypeUnknown.
Proof. apply good_full. Qed.
Lemma good_p_Mmdvm2020_TypeMasterRepeaterAck : good p_Mmdvm2020_TypeMasterRepeaterAck.
Proof. apply (good_table _ "Mmdvm2020.TypeMasterRepeaterAck" L_Mmdvm2020_TypeMasterRepeaterAck); [tab|ks]. Qed.
Lemma good_p_Mmdvm2020_TypeMasterClosing : good p_Mmdvm2020_TypeMasterClosing.
Proof. apply (good_table _ "Mmdvm2020.TypeMasterClosing" L_Mmdvm2020_TypeMasterClosing); [tab|ks]. Qed.
Lemma good_p_Mmdvm2020_TypeDmrData : good p_Mmdvm2020_TypeDmrData.
Proof. apply (good_spec _ (fun b => Mmdvm2020_dmrd b 0)); [intros; apply dmrd_mm0|intros; apply sane_mm_dmrd]. Qed.
Lemma good_p_Mmdvm2020_TypeRepeaterBeacon : good (fun _ => p_Mmdvm2020_TypeRepeaterBeacon).
Proof. apply (good_table _ "Mmdvm2020.TypeRepeaterBeacon" []); [intros; reflexivity|kindssane]. Qed.
Lemma good_p_Mmdvm2020_TypeRepeaterOptions : good p_Mmdvm2020_TypeRepeaterOptions.
Proof. apply (good_spec _ (fun b => Mmdvm2020_options b 0)); [intros; rewrite from_bytes_value; apply options_mm0|intros; apply sane_mm_options]. Qed.
Lemma good_p_Mmdvm2020_TypeRepeaterClosing : good p_Mmdvm2020_TypeRepeaterClosing.
Proof. apply (good_table _ "Mmdvm2020.TypeRepeaterClosing" L_Mmdvm2020_TypeRepeaterClosing); [tab|ks]. Qed.
Lemma good_p_Mmdvm2020_TypeRepeaterConfiguration : good p_Mmdvm2020_TypeRepeaterConfiguration.
Proof. apply (good_spec _ (fun b => Mmdvm2020_config b 0)); [intros; rewrite from_bytes_value; apply config_mm0|intros; apply sane_mm_config]. Qed.
Lemma good_p_Mmdvm2020_TypeRepeaterPing : good p_Mmdvm2020_TypeRepeaterPing.
Proof. apply (good_table _ "Mmdvm2020.TypeRepeaterPing" L_Mmdvm2020_TypeRepeaterPing); [tab|ks]. Qed.
Lemma good_p_Mmdvm2020 : good p_Mmdvm2020.
Proof. apply (good_spec _ Mmdvm2020_spec); [exact mmdvm_ok|exact sane_mmdvm]. Qed.
Lemma good_p_RadioIp : good p_RadioIp.
Proof. apply (good_table _ "RadioIp" L_RadioIp); [tab|ks]. Qed.
Lemma good_p_RadioId : good p_RadioId.
Proof. apply (good_table _ "RadioId" L_RadioId); [tab|ks]. Qed.
Lemma good_p_Datetimestring : good p_Datetimestring.
Proof. apply (good_table _ "Datetimestring" L_Datetimestring); [tab|ks]. Qed.
Lemma good_p_Intervalstring : good p_Intervalstring.
Proof. apply (good_table _ "Intervalstring" L_Intervalstring); [tab|ks]. Qed.
Lemma good_p_Gpsdata : good p_Gpsdata.
Proof. apply (good_table _ "Gpsdata" L_Gpsdata); [tab|ks]. Qed.
Lemma good_p_RadioRegistrationService : good p_RadioRegistrationService.
Proof. apply (good_dec _ _ d_rrs saned_rrs). Qed.
Lemma good_p_DataDeliveryStates : good p_DataDeliveryStates.
Proof. apply (good_table _ "DataDeliveryStates" L_DataDeliveryStates); [tab|ks]. Qed.
Lemma good_p_DataTransmitProtocol_LastDataSlice : good p_DataTransmitProtocol_LastDataSlice.
Proof. apply (good_table _ "DataTransmitProtocol.LastDataSlice" L_DataTransmitProtocol_LastDataSlice); [tab|ks]. Qed.
Lemma good_p_DataTransmitProtocol_DataSliceAnswer : good p_DataTransmitProtocol_DataSliceAnswer.
Proof. apply (good_table _ "DataTransmitProtocol.DataSliceAnswer" L_DataTransmitProtocol_DataSliceAnswer); [tab|ks]. Qed.
Lemma good_p_DataTransmitProtocol_LastDataSliceAnswer : good p_DataTransmitProtocol_LastDataSliceAnswer.
Proof. apply (good_table _ "DataTransmitProtocol.LastDataSliceAnswer" L_DataTransmitProtocol_LastDataSliceAnswer); [tab|ks]. Qed.
Lemma good_p_DataTransmitProtocol_DtpAnswer : good p_DataTransmitProtocol_DtpAnswer.
Proof. apply (good_table _ "DataTransmitProtocol.DtpAnswer" L_DataTransmitProtocol_DtpAnswer); [tab|ks]. Qed.
Lemma good_p_DataTransmitProtocol : good p_DataTransmitProtocol.
Proof. apply (good_dec _ _ d_dtp saned_dtp). Qed.
Lemma good_p_TextMessageProtocol : good p_TextMessageProtocol.
Proof. apply (good_dec _ _ d_tmp saned_tmp). Qed.
Lemma good_p_LocationProtocol_TriggeredReportStopAnswer : good p_LocationProtocol_TriggeredReportStopAnswer.
Proof. apply (good_table _ "LocationProtocol.TriggeredReportStopAnswer" L_LocationProtocol_TriggeredReportStopAnswer); [tab|ks]. Qed.
Lemma good_p_LocationProtocol_ConditionReportRequest : good p_LocationProtocol_ConditionReportRequest.
Proof. apply (good_table _ "LocationProtocol.ConditionReportRequest" L_LocationProtocol_ConditionReportRequest); [tab|ks]. Qed.
Lemma good_p_LocationProtocol_QuickGpsPayload : good p_LocationProtocol_QuickGpsPayload.
Proof. apply (good_table _ "LocationProtocol.QuickGpsPayload" L_LocationProtocol_QuickGpsPayload); [tab|ks]. Qed.
Lemma good_p_LocationProtocol_ConditionQuickGpsRequest : good p_LocationProtocol_ConditionQuickGpsRequest.
Proof. apply (good_dec _ _ d_quick_gps saned_qgps). Qed.
Lemma good_p_LocationProtocol_ConditionReport : good p_LocationProtocol_ConditionReport.
Proof. apply (good_table _ "LocationProtocol.ConditionReport" L_LocationProtocol_ConditionReport); [tab|ks]. Qed.
Lemma good_p_LocationProtocol_EmergencyReport : good p_LocationProtocol_EmergencyReport.
Proof. apply (good_table _ "LocationProtocol.EmergencyReport" L_LocationProtocol_EmergencyReport); [tab|ks]. Qed.
Lemma good_p_LocationProtocol_TriggeredReportAnswer : good p_LocationProtocol_TriggeredReportAnswer.
Proof. apply (good_table _ "LocationProtocol.TriggeredReportAnswer" L_LocationProtocol_TriggeredReportAnswer); [tab|ks]. Qed.
Lemma good_p_LocationProtocol_StandardAnswerWithRssi : good p_LocationProtocol_StandardAnswerWithRssi.
Proof. apply (good_table _ "LocationProtocol.StandardAnswerWithRssi" L_LocationProtocol_StandardAnswerWithRssi); [tab|ks]. Qed.
Lemma good_p_LocationProtocol_StandardRequest : good p_LocationProtocol_StandardRequest.
Proof. apply (good_table _ "LocationProtocol.StandardRequest" L_LocationProtocol_StandardRequest); [tab|ks]. Qed.
Lemma good_p_LocationProtocol_TriggeredReportRequest : good p_LocationProtocol_TriggeredReportRequest.
Proof. apply (good_table _ "LocationProtocol.TriggeredReportRequest" L_LocationProtocol_TriggeredReportRequest); [tab|ks]. Qed.
Lemma good_p_LocationProtocol_StandardAnswer : good p_LocationProtocol_StandardAnswer.
Proof. apply (good_table _ "LocationProtocol.StandardAnswer" L_LocationProtocol_StandardAnswer); [tab|ks]. Qed.
Lemma good_p_LocationProtocol_ConditionReportAnswer : good p_LocationProtocol_ConditionReportAnswer.
Proof. apply (good_table _ "LocationProtocol.ConditionReportAnswer" L_LocationProtocol_ConditionReportAnswer); [tab|ks]. Qed.
Lemma good_p_LocationProtocol_EmergencyReportStopRequest : good p_LocationProtocol_EmergencyReportStopRequest.
Proof. apply (good_table _ "LocationProtocol.EmergencyReportStopRequest" L_LocationProtocol_EmergencyReportStopRequest); [tab|ks]. Qed.
Lemma good_p_LocationProtocol_ConditionQuickGpsAnswer : good p_LocationProtocol_ConditionQuickGpsAnswer.
Proof. apply (good_table _ "LocationProtocol.ConditionQuickGpsAnswer" L_LocationProtocol_ConditionQuickGpsAnswer); [tab|ks]. Qed.
Lemma good_p_LocationProtocol_TriggeredReport : good p_LocationProtocol_TriggeredReport.
Proof. apply (good_table _ "LocationProtocol.TriggeredReport" L_LocationProtocol_TriggeredReport); [tab|ks]. Qed.
Lemma good_p_LocationProtocol_ConditionReportWithRssi : good p_LocationProtocol_ConditionReportWithRssi.
Proof. apply (good_table _ "LocationProtocol.ConditionReportWithRssi" L_LocationProtocol_ConditionReportWithRssi); [tab|ks]. Qed.
Lemma good_p_LocationProtocol_EmergencyReportStopAnswer : good p_LocationProtocol_EmergencyReportStopAnswer.
Proof. apply (good_table _ "LocationProtocol.EmergencyReportStopAnswer" L_LocationProtocol_EmergencyReportStopAnswer); [tab|ks]. Qed.
Lemma good_p_LocationProtocol_TriggeredReportStopRequest : good p_LocationProtocol_TriggeredReportStopRequest.
Proof. apply (good_table _ "LocationProtocol.TriggeredReportStopRequest" L_LocationProtocol_TriggeredReportStopRequest); [tab|ks]. Qed.
Lemma good_p_LocationProtocol : good p_LocationProtocol.
Proof. apply (good_dec _ _ d_lp saned_lp). Qed.
Lemma good_p_TelemetryProtocol_StandardStatusReport : good p_TelemetryProtocol_StandardStatusReport.
Proof. apply (good_table _ "TelemetryProtocol.StandardStatusReport" L_TelemetryProtocol_StandardStatusReport); [tab|ks]. Qed.
Lemma good_p_TelemetryProtocol_VioExtendedStatus : good p_TelemetryProtocol_VioExtendedStatus.
Proof. apply (good_dec _ _ d_vio). intros b k. unfold vio_status. apply sane_bind; [apply fields_sane; ks|]. intros g _. cbv zeta. apply sane_bind; [apply text_at_sane|intros; exact I]. Qed.
Lemma good_p_TelemetryProtocol_RemoteControlAnswer : good p_TelemetryProtocol_RemoteControlAnswer.
Proof. apply (good_table _ "TelemetryProtocol.RemoteControlAnswer" L_TelemetryProtocol_RemoteControlAnswer); [tab|ks]. Qed.
Lemma good_p_TelemetryProtocol_RemoteControlRequest : good p_TelemetryProtocol_RemoteControlRequest.
Proof. apply (good_table _ "TelemetryProtocol.RemoteControlRequest" L_TelemetryProtocol_RemoteControlRequest); [tab|ks]. Qed.
Lemma good_p_TelemetryProtocol_ExtendedStatusReport : good p_TelemetryProtocol_ExtendedStatusReport.
Proof. apply (good_dec _ _ d_ext_status saned_ext_status). Qed.
Lemma good_p_TelemetryProtocol_StandardStatusRequest : good p_TelemetryProtocol_StandardStatusRequest.
Proof. apply (good_table _ "TelemetryProtocol.StandardStatusRequest" L_TelemetryProtocol_StandardStatusRequest); [tab|ks]. Qed.
Lemma good_p_TelemetryProtocol : good p_TelemetryProtocol.
Proof. apply (good_dec _ _ d_tp). apply saned_tp. Qed.
Lemma good_p_RadioControlProtocol_BroadcastStatusConfigurationReply : good p_RadioControlProtocol_BroadcastStatusConfigurationReply.
Proof. apply (good_table _ "RadioControlProtocol.BroadcastStatusConfigurationReply" L_RadioControlProtocol_BroadcastStatusConfigurationReply); [tab|ks]. Qed.
Lemma good_p_RadioControlProtocol_BroadcastConfiguration : good p_RadioControlProtocol_BroadcastConfiguration.
Proof. apply (good_table _ "RadioControlProtocol.BroadcastConfiguration" L_RadioControlProtocol_BroadcastConfiguration); [tab|ks]. Qed.
Lemma good_p_RadioControlProtocol_BroadcastStatusConfigurationRequest : good p_RadioControlProtocol_BroadcastStatusConfigurationRequest.
Proof. apply (good_dec _ _ d_rcp_broadcast saned_rcp_broadcast). Qed.
Lemma good_p_RadioControlProtocol_CallRequest : good p_RadioControlProtocol_CallRequest.
Proof. apply (good_table _ "RadioControlProtocol.CallRequest" L_RadioControlProtocol_CallRequest); [tab|ks]. Qed.
Lemma good_p_RadioControlProtocol_RemoveRadioReply : good p_RadioControlProtocol_RemoveRadioReply.
Proof. apply (good_table _ "RadioControlProtocol.RemoveRadioReply" L_RadioControlProtocol_RemoveRadioReply); [tab|ks]. Qed.
Lemma good_p_RadioControlProtocol_RemoveRadioRequest : good (fun _ => p_RadioControlProtocol_RemoveRadioRequest).
Proof. apply (good_dec _ _ (fun _ => d_rcp_remove)). apply saned_table. ks. Qed.
Lemma good_p_RadioControlProtocol_CallReply : good p_RadioControlProtocol_CallReply.
Proof. apply (good_table _ "RadioControlProtocol.CallReply" L_RadioControlProtocol_CallReply); [tab|ks]. Qed.
Lemma good_p_RadioControlProtocol : good p_RadioControlProtocol.
Proof. apply (good_dec _ _ d_rcp saned_rcp). Qed.
Lemma good_p_HyteraDmrApplicationProtocol_UndefinedProtocol : good p_HyteraDmrApplicationProtocol_UndefinedProtocol.
Proof. apply good_full. Qed.
Lemma good_p_HyteraDmrApplicationProtocol : good p_HyteraDmrApplicationProtocol.
Proof. apply (good_dec _ _ d_hdap saned_hdap). Qed.
Lemma good_p_HyteraRadioNetworkProtocol : good p_HyteraRadioNetworkProtocol.
Proof. apply (good_dec _ _ d_hrnp saned_hrnp). Qed.
Lemma good_p_HyteraSimpleTransportReliabilityProtocol_Option : good p_HyteraSimpleTransportReliabilityProtocol_Option.
Proof. apply (good_dec _ _ d_option saned_option). Qed.
Lemma good_p_HyteraSimpleTransportReliabilityProtocol : good p_HyteraSimpleTransportReliabilityProtocol.
Proof. split; [intros rt rt' b; exact (C34_hstrp_determined b _ _ (hstrp_meets rt b) (hstrp_meets rt' b))|intros; eapply sane_hstrp, hstrp_meets]. Qed.
Lemma good_p_IpSiteConnectProtocol : good p_IpSiteConnectProtocol.
Proof. apply (good_spec _ ipsc_spec); [exact ipsc_meets|exact sane_ipsc]. Qed.
Lemma good_p_IpSiteConnectHeartbeat_Keepalive : good p_IpSiteConnectHeartbeat_Keepalive.
Proof. apply (good_table _ "IpSiteConnectHeartbeat.Keepalive" L_IpSiteConnectHeartbeat_Keepalive); [tab|ks]. Qed.
Lemma good_p_IpSiteConnectHeartbeat_PingPong : good p_IpSiteConnectHeartbeat_PingPong.
Proof. apply (good_table _ "IpSiteConnectHeartbeat.PingPong" L_IpSiteConnectHeartbeat_PingPong); [tab|ks]. Qed.
Lemma good_p_IpSiteConnectHeartbeat_Unknown : good p_IpSiteConnectHeartbeat_Unknown.
Proof. apply good_full. Qed.
Lemma good_p_IpSiteConnectHeartbeat : good p_IpSiteConnectHeartbeat.
Proof. apply (good_spec _ heartbeat_spec); [exact heartbeat_meets|exact sane_heartbeat]. Qed.
Lemma good_p_RealTimeTransportProtocol_FixedHeader : good p_RealTimeTransportProtocol_FixedHeader.
Proof. apply (good_dec _ _ d_rtp_fixed saned_rtp_fixed). Qed.
Lemma good_p_RealTimeTransportProtocol_HeaderExtension : good p_RealTimeTransportProtocol_HeaderExtension.
Proof. apply (good_table _ "RealTimeTransportProtocol.HeaderExtension" L_RealTimeTransportProtocol_HeaderExtension); [tab|ks]. Qed.
Lemma good_p_RealTimeTransportProtocol : good p_RealTimeTransportProtocol.
Proof. apply (good_spec _ rtp_spec); [exact rtp_meets|exact sane_rtp]. Qed.
Lemma good_p_AutomaticRegistrationService_DeviceRegistrationMessageHeader : good (fun _ => p_AutomaticRegistrationService_DeviceRegistrationMessageHeader).
Proof. apply (good_table _ "AutomaticRegistrationService.DeviceRegistrationMessageHeader" L_AutomaticRegistrationService_DeviceRegistrationMessageHeader); [tab|ks]. Qed.
Lemma good_p_AutomaticRegistrationService_MessageHeaderBits : good (fun _ => p_AutomaticRegistrationService_MessageHeaderBits).
Proof. apply (good_table _ "AutomaticRegistrationService.MessageHeaderBits" L_AutomaticRegistrationService_MessageHeaderBits); [tab|ks]. Qed.
Lemma good_p_AutomaticRegistrationService_DeviceDeregistrationMessage : good (fun _ => p_AutomaticRegistrationService_DeviceDeregistrationMessage).
Proof. apply good_const. Qed.
Lemma good_p_AutomaticRegistrationService_DeviceRegistrationAcknowledgementFailureReason : good (fun _ => p_AutomaticRegistrationService_DeviceRegistrationAcknowledgementFailureReason).
Proof. apply (good_table _ "AutomaticRegistrationService.DeviceRegistrationAcknowledgementFailureReason" L_AutomaticRegistrationService_DeviceRegistrationAcknowledgementFailureReason); [tab|ks]. Qed.
Lemma good_p_AutomaticRegistrationService_DeviceRegistrationAcknowledgementHeader : good (fun _ => p_AutomaticRegistrationService_DeviceRegistrationAcknowledgementHeader).
Proof. apply (good_table _ "AutomaticRegistrationService.DeviceRegistrationAcknowledgementHeader" L_AutomaticRegistrationService_DeviceRegistrationAcknowledgementHeader); [tab|ks]. Qed.
Lemma good_p_AutomaticRegistrationService_ArsQueryMessage : good (fun _ => p_AutomaticRegistrationService_ArsQueryMessage).
Proof. apply good_const. Qed.
Lemma good_p_AutomaticRegistrationService : good p_AutomaticRegistrationService.
Proof. apply (good_spec _ ars_spec); [exact ars_meets|exact sane_ars]. Qed.
Lemma good_p_MotTextMessageProtocol_TextMessageHeaderSequenceAndEncoding : good (fun _ => p_MotTextMessageProtocol_TextMessageHeaderSequenceAndEncoding).
Proof. split; [reflexivity|]. intros _ b. enough (H : safe p_MotTextMessageProtocol_TextMessageHeaderSequenceAndEncoding) by apply (H (stream_of b)).
  unfold p_MotTextMessageProtocol_TextMessageHeaderSequenceAndEncoding, read_flag, some, none, vflag, vint.
  repeat first [ apply safe_ret | apply safe_bits | match goal with |- safe (if ?c then _ else _) => destruct c end | apply safe_bind; [|intros ?] ]. Qed.
Lemma good_p_MotTextMessageProtocol_TmsServiceAvailabilityHeader : good (fun _ => p_MotTextMessageProtocol_TmsServiceAvailabilityHeader).
Proof. apply (good_table _ "TextMessageProtocol.TmsServiceAvailabilityHeader" L_MotTextMessageProtocol_TmsServiceAvailabilityHeader); [tab|ks]. Qed.
Lemma good_p_MotTextMessageProtocol_MessageHeaderBits : good (fun _ => p_MotTextMessageProtocol_MessageHeaderBits).
Proof. apply (good_table _ "TextMessageProtocol.MessageHeaderBits" L_MotTextMessageProtocol_MessageHeaderBits); [tab|ks]. Qed.
Lemma good_p_MotTextMessageProtocol_TmsAcknowledgementHeaderSequenceNumber : good (fun _ => p_MotTextMessageProtocol_TmsAcknowledgementHeaderSequenceNumber).
Proof. apply (good_dec _ _ (fun _ => d_mot_ack_header)). intros b k. apply saned_mot_ack_header. Qed.
Lemma good_p_MotTextMessageProtocol_TmsServiceAvailabilityAcknowledgement : good (fun _ => p_MotTextMessageProtocol_TmsServiceAvailabilityAcknowledgement).
Proof. apply good_const. Qed.
Lemma good_p_MotTextMessageProtocol : good p_MotTextMessageProtocol.
Proof. apply (good_spec _ mot_tmp_spec); [exact mot_tmp_meets|exact sane_mot_tmp]. Qed.
Lemma good_p_MotorolaBinaryXml_OpaqueElementValue : good p_MotorolaBinaryXml_OpaqueElementValue.
Proof. apply (good_dec _ _ d_opaque saned_opaque). Qed.
Lemma good_p_MotorolaBinaryXml_Opaque1byteValue : good p_MotorolaBinaryXml_Opaque1byteValue.
Proof. apply (good_table _ "MotorolaBinaryXml.Opaque1byteValue" L_MotorolaBinaryXml_Opaque1byteValue); [tab|ks]. Qed.
Lemma good_p_MotorolaBinaryXml_Opaque2byteValue : good p_MotorolaBinaryXml_Opaque2byteValue.
Proof. apply (good_table _ "MotorolaBinaryXml.Opaque2byteValue" L_MotorolaBinaryXml_Opaque2byteValue); [tab|ks]. Qed.
Lemma good_p_MotorolaBinaryXml_Opaque3byteValue : good p_MotorolaBinaryXml_Opaque3byteValue.
Proof. apply (good_table _ "MotorolaBinaryXml.Opaque3byteValue" L_MotorolaBinaryXml_Opaque3byteValue); [tab|ks]. Qed.
Lemma good_p_MotorolaBinaryXml_Opaque4byteValue : good p_MotorolaBinaryXml_Opaque4byteValue.
Proof. apply (good_table _ "MotorolaBinaryXml.Opaque4byteValue" L_MotorolaBinaryXml_Opaque4byteValue); [tab|ks]. Qed.
Lemma good_p_MotorolaBinaryXml_Opaque5byteValue : good p_MotorolaBinaryXml_Opaque5byteValue.
Proof. apply (good_table _ "MotorolaBinaryXml.Opaque5byteValue" L_MotorolaBinaryXml_Opaque5byteValue); [tab|ks]. Qed.
Lemma good_p_MotorolaBinaryXml_Uintvar : good p_MotorolaBinaryXml_Uintvar.
Proof. apply (good_dec _ _ d_uintvar (saned_var _)). Qed.
Lemma good_p_MotorolaBinaryXml_Sintvar : good p_MotorolaBinaryXml_Sintvar.
Proof. apply (good_dec _ _ d_sintvar (saned_var _)). Qed.
Lemma good_p_MotorolaBinaryXml_ConstantDataTableReference : good p_MotorolaBinaryXml_ConstantDataTableReference.
Proof. apply (good_dec _ _ d_cdt_reference saned_cdt). Qed.
Lemma good_p_MotorolaBinaryXml_LrrpElement : good p_MotorolaBinaryXml_LrrpElement.
Proof. apply (good_dec _ _ d_lrrp_element saned_element). Qed.
Lemma good_p_MotorolaBinaryXml_LrrpImmediateRequestNcdt : good p_MotorolaBinaryXml_LrrpImmediateRequestNcdt.
Proof. apply (good_dec _ _ d_lrrp_request saned_request). Qed.
Lemma good_p_MotorolaBinaryXml_Sfloatvar : good p_MotorolaBinaryXml_Sfloatvar.
Proof. apply (good_dec _ _ d_sfloatvar). apply saned_two; apply saned_var. Qed.
Lemma good_p_MotorolaBinaryXml_Ufloatvar : good p_MotorolaBinaryXml_Ufloatvar.
Proof. apply (good_dec _ _ d_ufloatvar). apply saned_two; apply saned_var. Qed.
Lemma good_p_MotorolaBinaryXml_MbxmlDocument : good p_MotorolaBinaryXml_MbxmlDocument.
Proof. apply (good_dec _ _ d_document saned_document). Qed.
Lemma good_p_MotorolaBinaryXml : good p_MotorolaBinaryXml.
Proof. apply (good_spec _ mbxml_spec); [exact mbxml_meets|exact sane_mbxml]. Qed.

Lemma all_good : Forall (fun np => good (snd np)) all_parsers.
Proof.
  unfold all_parsers.
  apply Forall_cons; [exact good_p_DmrCsbk_NegativeAckResponseData|].
  apply Forall_cons; [exact good_p_DmrCsbk_ServiceOptions|].
  apply Forall_cons; [exact good_p_DmrCsbk_UnitToUnitVoiceRequestData|].
  apply Forall_cons; [exact good_p_DmrCsbk_PreambleData|].
  apply Forall_cons; [exact good_p_DmrCsbk_ChannelTimingData|].
  apply Forall_cons; [exact good_p_DmrCsbk_BsOutboundActivationData|].
  apply Forall_cons; [exact good_p_DmrCsbk_UnitToUnitVoiceAnswerData|].
  apply Forall_cons; [exact good_p_DmrCsbk|].
  apply Forall_cons; [exact good_p_DmrData_Rate1LastBlockUnconfirmed|].
  apply Forall_cons; [exact good_p_DmrData_Rate12LastBlockConfirmed|].
  apply Forall_cons; [exact good_p_DmrData_Rate12Confirmed|].
  apply Forall_cons; [exact good_p_DmrData_Rate34LastBlockUnconfirmed|].
  apply Forall_cons; [exact good_p_DmrData_Rate1LastBlockConfirmed|].
  apply Forall_cons; [exact good_p_DmrData_Rate1Unconfirmed|].
  apply Forall_cons; [exact good_p_DmrData_UdtLastBlock|].
  apply Forall_cons; [exact good_p_DmrData_Rate34Confirmed|].
  apply Forall_cons; [exact good_p_DmrData_Rate34LastBlockConfirmed|].
  apply Forall_cons; [exact good_p_DmrData_Rate34Unconfirmed|].
  apply Forall_cons; [exact good_p_DmrData_Rate12LastBlockUnconfirmed|].
  apply Forall_cons; [exact good_p_DmrData_Rate1Confirmed|].
  apply Forall_cons; [exact good_p_DmrData_Rate12Unconfirmed|].
  apply Forall_cons; [exact good_p_DmrData|].
  apply Forall_cons; [exact good_p_DmrDataHeader_DataHeaderShortRaw|].
  apply Forall_cons; [exact good_p_DmrDataHeader_DataHeaderProprietary|].
  apply Forall_cons; [exact good_p_DmrDataHeader_DataHeaderUndefined|].
  apply Forall_cons; [exact good_p_DmrDataHeader_DataHeaderShortStatusPrecoded|].
  apply Forall_cons; [exact good_p_DmrDataHeader_DataHeaderResponse|].
  apply Forall_cons; [exact good_p_DmrDataHeader_DataHeaderConfirmed|].
  apply Forall_cons; [exact good_p_DmrDataHeader_DataHeaderUnconfirmed|].
  apply Forall_cons; [exact good_p_DmrDataHeader_DataHeaderShortDefined|].
  apply Forall_cons; [exact good_p_DmrDataHeader_DataHeaderUdt|].
  apply Forall_cons; [exact good_p_DmrDataHeader|].
  apply Forall_cons; [exact good_p_DmrIpUdp_UdpIpv4CompressedHeader|].
  apply Forall_cons; [exact good_p_DmrIpUdp|].
  apply Forall_cons; [exact good_p_FullLinkControl_GpsInfoLcPdu|].
  apply Forall_cons; [exact good_p_FullLinkControl_GroupVoiceChannelUser|].
  apply Forall_cons; [exact good_p_FullLinkControl_UnitToUnitVoiceChannelUser|].
  apply Forall_cons; [exact good_p_FullLinkControl_TalkerAliasHeader|].
  apply Forall_cons; [exact good_p_FullLinkControl_TalkerAliasContinuation|].
  apply Forall_cons; [exact good_p_FullLinkControl|].
  apply Forall_cons; [exact good_p_Homebrew2015_TypeMasterPing|].
  apply Forall_cons; [exact good_p_Homebrew2015_TypeRepeaterPong|].
  apply Forall_cons; [exact good_p_Homebrew2015_TypeRepeaterLoginResponse|].
  apply Forall_cons; [exact good_p_Homebrew2015_TypeRepeaterLoginRequest|].
  apply Forall_cons; [exact good_p_Homebrew2015_TypeMasterNotAccept|].
  apply Forall_cons; [exact good_p_Homebrew2015_TypeMasterRepeaterAck|].
  apply Forall_cons; [exact good_p_Homebrew2015_TypeMasterClosing|].
  apply Forall_cons; [exact good_p_Homebrew2015_TypeDmrData|].
  apply Forall_cons; [exact good_p_Homebrew2015_TypeRepeaterOptions|].
  apply Forall_cons; [exact good_p_Homebrew2015_TypeRepeaterClosing|].
  apply Forall_cons; [exact good_p_Homebrew2015_TypeRepeaterConfiguration|].
  apply Forall_cons; [exact good_p_Homebrew2015|].
  apply Forall_cons; [exact good_p_Mmdvm2020_TypeMasterPong|].
  apply Forall_cons; [exact good_p_Mmdvm2020_TypeRadioPosition|].
  apply Forall_cons; [exact good_p_Mmdvm2020_TypeTalkerAlias|].
  apply Forall_cons; [exact good_p_Mmdvm2020_TypeRepeaterLoginResponse|].
  apply Forall_cons; [exact good_p_Mmdvm2020_TypeRepeaterLoginRequest|].
  apply Forall_cons; [exact good_p_Mmdvm2020_TypeMasterNotAccept|].
  apply Forall_cons; [exact good_p_Mmdvm2020_TypeUnknown|].
  apply Forall_cons; [exact good_p_Mmdvm2020_TypeMasterRepeaterAck|].
  apply Forall_cons; [exact good_p_Mmdvm2020_TypeMasterClosing|].
  apply Forall_cons; [exact good_p_Mmdvm2020_TypeDmrData|].
  apply Forall_cons; [exact good_p_Mmdvm2020_TypeRepeaterBeacon|].
  apply Forall_cons; [exact good_p_Mmdvm2020_TypeRepeaterOptions|].
  apply Forall_cons; [exact good_p_Mmdvm2020_TypeRepeaterClosing|].
  apply Forall_cons; [exact good_p_Mmdvm2020_TypeRepeaterConfiguration|].
  apply Forall_cons; [exact good_p_Mmdvm2020_TypeRepeaterPing|].
  apply Forall_cons; [exact good_p_Mmdvm2020|].
  apply Forall_cons; [exact good_p_RadioIp|].
  apply Forall_cons; [exact good_p_RadioId|].
  apply Forall_cons; [exact good_p_Datetimestring|].
  apply Forall_cons; [exact good_p_Intervalstring|].
  apply Forall_cons; [exact good_p_Gpsdata|].
  apply Forall_cons; [exact good_p_RadioRegistrationService|].
  apply Forall_cons; [exact good_p_DataDeliveryStates|].
  apply Forall_cons; [exact good_p_DataTransmitProtocol_LastDataSlice|].
  apply Forall_cons; [exact good_p_DataTransmitProtocol_DataSliceAnswer|].
  apply Forall_cons; [exact good_p_DataTransmitProtocol_LastDataSliceAnswer|].
  apply Forall_cons; [exact good_p_DataTransmitProtocol_DtpAnswer|].
  apply Forall_cons; [exact good_p_DataTransmitProtocol|].
  apply Forall_cons; [exact good_p_TextMessageProtocol|].
  apply Forall_cons; [exact good_p_LocationProtocol_TriggeredReportStopAnswer|].
  apply Forall_cons; [exact good_p_LocationProtocol_ConditionReportRequest|].
  apply Forall_cons; [exact good_p_LocationProtocol_QuickGpsPayload|].
  apply Forall_cons; [exact good_p_LocationProtocol_ConditionQuickGpsRequest|].
  apply Forall_cons; [exact good_p_LocationProtocol_ConditionReport|].
  apply Forall_cons; [exact good_p_LocationProtocol_EmergencyReport|].
  apply Forall_cons; [exact good_p_LocationProtocol_TriggeredReportAnswer|].
  apply Forall_cons; [exact good_p_LocationProtocol_StandardAnswerWithRssi|].
  apply Forall_cons; [exact good_p_LocationProtocol_StandardRequest|].
  apply Forall_cons; [exact good_p_LocationProtocol_TriggeredReportRequest|].
  apply Forall_cons; [exact good_p_LocationProtocol_StandardAnswer|].
  apply Forall_cons; [exact good_p_LocationProtocol_ConditionReportAnswer|].
  apply Forall_cons; [exact good_p_LocationProtocol_EmergencyReportStopRequest|].
  apply Forall_cons; [exact good_p_LocationProtocol_ConditionQuickGpsAnswer|].
  apply Forall_cons; [exact good_p_LocationProtocol_TriggeredReport|].
  apply Forall_cons; [exact good_p_LocationProtocol_ConditionReportWithRssi|].
  apply Forall_cons; [exact good_p_LocationProtocol_EmergencyReportStopAnswer|].
  apply Forall_cons; [exact good_p_LocationProtocol_TriggeredReportStopRequest|].
  apply Forall_cons; [exact good_p_LocationProtocol|].
  apply Forall_cons; [exact good_p_TelemetryProtocol_StandardStatusReport|].
  apply Forall_cons; [exact good_p_TelemetryProtocol_VioExtendedStatus|].
  apply Forall_cons; [exact good_p_TelemetryProtocol_RemoteControlAnswer|].
  apply Forall_cons; [exact good_p_TelemetryProtocol_RemoteControlRequest|].
  apply Forall_cons; [exact good_p_TelemetryProtocol_ExtendedStatusReport|].
  apply Forall_cons; [exact good_p_TelemetryProtocol_StandardStatusRequest|].
  apply Forall_cons; [exact good_p_TelemetryProtocol|].
  apply Forall_cons; [exact good_p_RadioControlProtocol_BroadcastStatusConfigurationReply|].
  apply Forall_cons; [exact good_p_RadioControlProtocol_BroadcastConfiguration|].
  apply Forall_cons; [exact good_p_RadioControlProtocol_BroadcastStatusConfigurationRequest|].
  apply Forall_cons; [exact good_p_RadioControlProtocol_CallRequest|].
  apply Forall_cons; [exact good_p_RadioControlProtocol_RemoveRadioReply|].
  apply Forall_cons; [exact good_p_RadioControlProtocol_RemoveRadioRequest|].
  apply Forall_cons; [exact good_p_RadioControlProtocol_CallReply|].
  apply Forall_cons; [exact good_p_RadioControlProtocol|].
  apply Forall_cons; [exact good_p_HyteraDmrApplicationProtocol_UndefinedProtocol|].
  apply Forall_cons; [exact good_p_HyteraDmrApplicationProtocol|].
  apply Forall_cons; [exact good_p_HyteraRadioNetworkProtocol|].
  apply Forall_cons; [exact good_p_HyteraSimpleTransportReliabilityProtocol_Option|].
  apply Forall_cons; [exact good_p_HyteraSimpleTransportReliabilityProtocol|].
  apply Forall_cons; [exact good_p_IpSiteConnectProtocol|].
  apply Forall_cons; [exact good_p_IpSiteConnectHeartbeat_Keepalive|].
  apply Forall_cons; [exact good_p_IpSiteConnectHeartbeat_PingPong|].
  apply Forall_cons; [exact good_p_IpSiteConnectHeartbeat_Unknown|].
  apply Forall_cons; [exact good_p_IpSiteConnectHeartbeat|].
  apply Forall_cons; [exact good_p_RealTimeTransportProtocol_FixedHeader|].
  apply Forall_cons; [exact good_p_RealTimeTransportProtocol_HeaderExtension|].
  apply Forall_cons; [exact good_p_RealTimeTransportProtocol|].
  apply Forall_cons; [exact good_p_AutomaticRegistrationService_DeviceRegistrationMessageHeader|].
  apply Forall_cons; [exact good_p_AutomaticRegistrationService_MessageHeaderBits|].
  apply Forall_cons; [exact good_p_AutomaticRegistrationService_DeviceDeregistrationMessage|].
  apply Forall_cons; [exact good_p_AutomaticRegistrationService_DeviceRegistrationAcknowledgementFailureReason|].
  apply Forall_cons; [exact good_p_AutomaticRegistrationService_DeviceRegistrationAcknowledgementHeader|].
  apply Forall_cons; [exact good_p_AutomaticRegistrationService_ArsQueryMessage|].
  apply Forall_cons; [exact good_p_AutomaticRegistrationService|].
  apply Forall_cons; [exact good_p_MotTextMessageProtocol_TextMessageHeaderSequenceAndEncoding|].
  apply Forall_cons; [exact good_p_MotTextMessageProtocol_TmsServiceAvailabilityHeader|].
  apply Forall_cons; [exact good_p_MotTextMessageProtocol_MessageHeaderBits|].
  apply Forall_cons; [exact good_p_MotTextMessageProtocol_TmsAcknowledgementHeaderSequenceNumber|].
  apply Forall_cons; [exact good_p_MotTextMessageProtocol_TmsServiceAvailabilityAcknowledgement|].
  apply Forall_cons; [exact good_p_MotTextMessageProtocol|].
  apply Forall_cons; [exact good_p_MotorolaBinaryXml_OpaqueElementValue|].
  apply Forall_cons; [exact good_p_MotorolaBinaryXml_Opaque1byteValue|].
  apply Forall_cons; [exact good_p_MotorolaBinaryXml_Opaque2byteValue|].
  apply Forall_cons; [exact good_p_MotorolaBinaryXml_Opaque3byteValue|].
  apply Forall_cons; [exact good_p_MotorolaBinaryXml_Opaque4byteValue|].
  apply Forall_cons; [exact good_p_MotorolaBinaryXml_Opaque5byteValue|].
  apply Forall_cons; [exact good_p_MotorolaBinaryXml_Uintvar|].
  apply Forall_cons; [exact good_p_MotorolaBinaryXml_Sintvar|].
  apply Forall_cons; [exact good_p_MotorolaBinaryXml_ConstantDataTableReference|].
  apply Forall_cons; [exact good_p_MotorolaBinaryXml_LrrpElement|].
  apply Forall_cons; [exact good_p_MotorolaBinaryXml_LrrpImmediateRequestNcdt|].
  apply Forall_cons; [exact good_p_MotorolaBinaryXml_Sfloatvar|].
  apply Forall_cons; [exact good_p_MotorolaBinaryXml_Ufloatvar|].
  apply Forall_cons; [exact good_p_MotorolaBinaryXml_MbxmlDocument|].
  apply Forall_cons; [exact good_p_MotorolaBinaryXml|].
  apply Forall_nil.
Qed.
