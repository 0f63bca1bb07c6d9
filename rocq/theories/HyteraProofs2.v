(** The hytera parsers meet their specification. *)
From Verif Require Import PyBase Runtime Codec CodecSpec CodecProofs Spec DecSpec RuntimeProofs DecProofs Enums EnumProofs Getters HyteraModel HyteraSpec HyteraRuns HyteraProofs.
From Coq Require Import ZifyBool.
Ltac Zify.zify_post_hook ::= Z.div_mod_to_equations.
Open Scope string_scope.
Open Scope list_scope.
Open Scope Z_scope.

Section S.
Context (rt : runtime).

Definition vio_status : decoder := fun b k =>
  let* g := fields b k L_vio_extended_status in
  let n := ubits b (8 * k + 8) 16 in
  let* t := text_at UTF16LE b (k + 3) n in
  Ok (VObj "TelemetryProtocol.VioExtendedStatus" (g ++ [("message", t)]), k + 3 + n).

Lemma d_vio : runs_dec (p_TelemetryProtocol_VioExtendedStatus rt) vio_status.
Proof.
  intros b k Hk. unfold p_TelemetryProtocol_VioExtendedStatus, vio_status, L_vio_extended_status. flds. pos.
  apply step_text; [blens|]. intros. leaf.
Qed.

Lemma d_ext_status : runs_dec (p_TelemetryProtocol_ExtendedStatusReport rt) extended_status_report.
Proof.
  intros b k Hk. unfold p_TelemetryProtocol_ExtendedStatusReport, extended_status_report, obj. cbn [seq].
  unfold L_extended_status_report. flds. pos.
  match goal with |- agrees _ _ _ ?r => replace r with
    (let* x := vio_status b (k + 11) in
     Ok (VObj "TelemetryProtocol.ExtendedStatusReport"
        ([("source_ip", v); ("target_ip", v0); ("pc_flag", resolve_enum TelemetryProtocol_PcFlagTypes (ubits b (8 * k + 64) 8));
          ("call_type", resolve_enum TelemetryProtocol_CallTypes (ubits b (8 * k + 72) 8)); ("vio_select", v1)] ++ [("result_messages", fst x)]), snd x)) end.
  2:{ unfold vio_status. destruct (fields b (k + 11) L_vio_extended_status) as [a|e]; [|reflexivity]. cbn [rbind].
      replace (k + 11 + 3) with (k + 14) by lia. destruct (text_at _ _ _ _); reflexivity. }
  eapply step_dec; [apply d_vio|blens|]. intros v2 e Hv He. cbn [fst snd].
  repeat first [rewrite step_assoc | rewrite step_ret]; cbv beta. leaf.
Qed.

Lemma d_tp : runs_dec (p_TelemetryProtocol rt) tp_at.
Proof.
  intros b k Hk. unfold p_TelemetryProtocol, tp_at, tp_selected_at, L_TelemetryProtocol, TelemetryProtocol_specific_service. flds. pos.
  cbv zeta. change (8 * 0) with 0.
  erewrite step_ok by (apply run_io_pos; lia).
  rewrite step_assoc.
  erewrite step_ok by (apply run_io_seek; [reflexivity|lia]).
  replace (k + 4 + (0 + 7) / 8) with (k + 4) by lia.
  unfold venum at 1. rewrite !step_assoc.
  erewrite step_if by (apply run_read_u2be; zside). rewrite (proj2 (fits_iff b 0 (0 + 16))) by blens. cbv iota beta.
  rewrite !step_ret, step_assoc. erewrite step_ok by (apply run_io_seek; [reflexivity|lia]). rewrite step_ret.
  change (8 * 0 + 0) with 0.
  unfold tp_bodies. pick (ubits b 0 16) tp_bodies.
  all: first [eapply step_part; [first [apply d_ext_status | dec_tab]|blens|]; intros ? ? ? ?; cbn [fst snd] | apply step_nopart; cbn [fst snd]].
  all: leaf.
Qed.

(** * Radio control protocol *)
Definition bc_pair (b : bytes) (p : Z) (i : nat) : pyval := VObj "RadioControlProtocol.BroadcastConfiguration" [
      ("config_operation", VInt (ubits b (8 * (p + 2 * Z.of_nat i)) 8));
      ("config_target", VInt (ubits b (8 * (p + 1 + 2 * Z.of_nat i)) 8))].

(** A counted list of items of [w] bytes. *)
Lemma run_repeat (w : Z) (m : M pyval) (f : bytes -> Z -> pyval) : 0 < w ->
  (forall b k, 0 <= k -> runM m (at_ b k 0) = if fits b k (8 * w) then Ok (f b k, at_ b (k + w) 0) else Err EOFError) ->
  forall n b k, 0 <= k <= blen b ->
  runM (repeat_n n m) (at_ b k 0) =
  if k + w * Z.of_nat n <=? blen b
  then Ok (map (fun i => f b (k + w * Z.of_nat i)) (List.seq 0 n), at_ b (k + w * Z.of_nat n) 0) else Err EOFError.
Proof.
  intros Hw Hm. induction n as [|n IH]; intros b k Hk.
  - cbn [repeat_n List.seq map]. rewrite runM_ret. change (Z.of_nat 0) with 0. rewrite Z.mul_0_r, Z.add_0_r.
    destruct (Z.leb_spec k (blen b)); [reflexivity|lia].
  - cbn [repeat_n]. rewrite runM_bind, Hm by lia.
    destruct (fits b k (8 * w)) eqn:Hf.
    + apply fits_iff in Hf. rewrite runM_bind, IH by lia.
      replace (k + w + w * Z.of_nat n) with (k + w * Z.of_nat (S n)) by lia.
      destruct (_ <=? _) eqn:E; [|reflexivity]. rewrite runM_ret. cbn [List.seq map].
      change (Z.of_nat 0) with 0. rewrite Z.mul_0_r, Z.add_0_r. do 3 f_equal.
      rewrite <- seq_shift, map_map. apply map_ext. intros i. f_equal. lia.
    + apply fits_niff in Hf. destruct (Z.leb_spec (k + w * Z.of_nat (S n)) (blen b)); [nia|reflexivity].
Qed.

Lemma run_bc b k : 0 <= k -> runM (p_RadioControlProtocol_BroadcastConfiguration rt) (at_ b k 0) =
  if fits b k (8 * 2) then Ok (bc_pair b k 0, at_ b (k + 2) 0) else Err EOFError.
Proof.
  intros Hk. unfold p_RadioControlProtocol_BroadcastConfiguration, obj. cbn [seq]. unfold vint. repeat rd1.
  destruct (fits b k 8) eqn:H1.
  - repeat rd1. change (8 * 2) with 16. destruct (fits b k 16); [|reflexivity]. repeat rd1. unfold bc_pair.
    rewrite (at_byte b k 16) by reflexivity. norm_lits. change (Z.of_nat 0) with 0.
    do 3 f_equal. replace (8 * (k + 2 * 0)) with (8 * k + 0) by lia. replace (8 * (k + 1 + 2 * 0)) with (8 * k + 8) by lia. reflexivity.
  - change (8 * 2) with 16. rewrite (proj2 (fits_niff b k 16)); [reflexivity|]. apply fits_niff in H1. lia.
Qed.

Lemma d_rcp_broadcast : runs_dec (p_RadioControlProtocol_BroadcastStatusConfigurationRequest rt) rcp_broadcast_request.
Proof.
  intros b k Hk. unfold p_RadioControlProtocol_BroadcastStatusConfigurationRequest, rcp_broadcast_request, for_range. cbv zeta.
  repeat rd1. destruct (fits b k 8) eqn:H1.
  - apply fits_iff in H1. destruct (Z.ltb_spec (blen b) (k + 1)); [lia|].
    rewrite !Z.add_0_r. pose proof (ubits_bound b (8 * k) 8 ltac:(lia)) as Hn. set (n := ubits b (8 * k) 8) in *.
    rewrite (at_byte b k 8) by reflexivity. norm_lits.
    rewrite runM_bind, (run_repeat 2 _ (fun b k => bc_pair b k 0)) by (first [lia | apply run_bc]).
    rewrite Z2Nat.id by lia.
    destruct (Z.leb_spec (k + 1 + 2 * n) (blen b)), (Z.ltb_spec (blen b) (k + 1 + 2 * n)); try lia; [|reflexivity].
    rewrite runM_ret. split; [|lia]. do 7 f_equal. apply map_ext. intros i. unfold bc_pair. change (Z.of_nat 0) with 0.
    rewrite Z.mul_0_r, !Z.add_0_r. do 6 f_equal. f_equal. lia.
  - apply fits_niff in H1. destruct (Z.ltb_spec (blen b) (k + 1)); [reflexivity|lia].
Qed.

Lemma d_rcp_identification ml : runs_dec (p_RadioControlProtocol_RadioIdentificationReply rt ml)
  (table "RadioControlProtocol.RadioIdentificationReply" (L_rcp_identification ml)).
Proof.
  intros b k Hk. unfold p_RadioControlProtocol_RadioIdentificationReply, table, L_rcp_identification.
  destruct (Z.leb_spec 6 ml), (Z.leb_spec 198 ml), (Z.leb_spec 206 ml); try lia; cbn [app fs_end f_off f_kind].
  all: flds; cbn [fs_end f_off f_kind kwidth]; norm_lits; pos; leaf; norm_lits; rewrite ?Z.add_0_r; try reflexivity.
Qed.

Lemma d_rcp_generic ml : runs_dec (p_RadioControlProtocol_GenericData rt ml) (rcp_generic ml).
Proof.
  intros b k Hk. unfold p_RadioControlProtocol_GenericData, rcp_generic. apply step_bytes; [lia|]. intros. leaf.
Qed.

Lemma d_rcp_remove : runs_dec (p_RadioControlProtocol_RemoveRadioRequest) (table "RadioControlProtocol.RemoveRadioRequest" L_RadioControlProtocol_RemoveRadioRequest).
Proof. intros b k Hk. unfold p_RadioControlProtocol_RemoveRadioRequest, table. cbn. split; [|lia]. rewrite Z.add_0_r. reflexivity. Qed.

Lemma d_rcp : runs_dec (p_RadioControlProtocol rt) rcp_at.
Proof.
  intros b k Hk. unfold p_RadioControlProtocol, rcp_at, L_RadioControlProtocol. flds. pos. cbv zeta.
  change (0 / 8) with 0. change (16 / 8) with 2. rewrite ?Z.add_0_r.
  unfold rcp_bodies. pick (le_num (slice b k 2)) (rcp_bodies 0).
  all: eapply step_part; [first [apply d_rcp_broadcast | apply d_rcp_identification | apply d_rcp_remove | apply d_rcp_generic | dec_tab]|blens|]; intros ? ? ? ?; cbn [fst snd].
  all: leaf.
Qed.

Lemma d_hdap_strict b k : 0 <= k <= blen b -> agrees b (k + 3) (runM (p_HyteraDmrApplicationProtocol rt) (at_ b k 0)) (hdap_at b k).
Proof.
  intros Hk. unfold p_HyteraDmrApplicationProtocol, hdap_at, L_HyteraDmrApplicationProtocol. flds. pos.
  unfold hdap_bodies. pick (ubits b (8 * k + 1) 7) hdap_bodies.
  all: first [eapply step_part; [first [apply d_rrs | apply d_tp | apply d_rcp | apply d_tmp | apply d_dds | apply d_lp | apply d_dtp]|blens|]; intros ? ? ? ?; cbn [fst snd] | apply step_nopart; cbn [fst snd]].
  all: unfold L_hdap_trailer; flds; pos; leaf.
Qed.
Lemma d_hdap : runs_dec (p_HyteraDmrApplicationProtocol rt) hdap_at.
Proof. intros b k Hk. eapply agrees_lower; [|apply d_hdap_strict; assumption]. lia. Qed.

Lemma d_hrnp : runs_dec (p_HyteraRadioNetworkProtocol rt) hrnp_at.
Proof.
  intros b k Hk. unfold p_HyteraRadioNetworkProtocol, hrnp_at, L_HyteraRadioNetworkProtocol. flds. pos.
  codes. destruct (ubits b (8 * k + 24) 8 =? 0).
  all: first [eapply step_part; [first [apply d_hdap]|blens|]; intros ? ? ? ?; cbn [fst snd] | apply step_nopart; cbn [fst snd]].
  all: leaf.
Qed.

Lemma d_option : runs_dec (p_HyteraSimpleTransportReliabilityProtocol_Option rt) option_at.
Proof.
  intros b k Hk. unfold p_HyteraSimpleTransportReliabilityProtocol_Option, option_at, L_hstrp_option. flds. pos. cbv zeta.
  apply step_bytes; [blens|]. intros. leaf.
Qed.

(** * HSTRP *)
Lemma option_at_ok b k o e : option_at b k = Ok (o, e) ->
  getattr "expect_more_options" o = Some (VBool (bit b (8 * k))) /\ k + 2 <= e.
Proof.
  unfold option_at, L_hstrp_option. cbv zeta. cbn [fields decode f_off f_kind f_name].
  destruct (fits b k (0 + kwidth KFlag)); [|discriminate].
  destruct (fits b k (1 + _)); [|discriminate].
  destruct (fits b k (8 + _)); [|discriminate]. cbn [rbind].
  unfold bytes_at. pose proof (ubits_bound b (8 * k + 8) 8 ltac:(lia)). remember (ubits b (8 * k + 8) 8) as n. remember (8 * k) as k8.
  destruct (_ <? 0); [discriminate|]. destruct (_ <=? _); [|discriminate]. cbn [rbind].
  intros [= <- <-]. split; [|lia]. cbn. rewrite Z.add_0_r. reflexivity.
Qed.

Lemma run_options fuel : forall b k, 0 <= k <= blen b -> blen b - k < Z.of_nat fuel ->
  exists r, options b k r /\
    agrees b k (runM (hstrp_options rt fuel) (at_ b k 0)) r.
Proof.
  induction fuel as [|fuel IH]; intros b k Hk Hf; [lia|].
  cbn [hstrp_options]. rewrite runM_bind.
  pose proof (d_option b k Hk) as D. unfold agrees in D.
  destruct (option_at b k) as [[o e]|x] eqn:Ho.
  - destruct D as [D He]. rewrite D. destruct (option_at_ok b k o e Ho) as [G He'].
    rewrite G. destruct (bit b (8 * k)) eqn:Hb.
    + destruct (IH b e ltac:(lia) ltac:(lia)) as [r [Hr Ha]].
      exists (rmap (fun x => (o :: fst x, snd x)) r). split; [eapply options_more; eassumption|].
      rewrite runM_bind. unfold agrees in *. destruct r as [[l e']|x]; cbn [rmap fst snd].
      * destruct Ha as [-> Ha]. rewrite runM_ret. split; [reflexivity|lia].
      * rewrite Ha. reflexivity.
    + exists (Ok ([o], e)). split; [eapply options_last; eassumption|]. rewrite runM_ret. split; [reflexivity|lia].
  - rewrite D. exists (Err x). split; [apply options_bad; assumption|reflexivity].
Qed.

Lemma run_messages fuel : forall b k, 0 <= k <= blen b -> blen b - k < Z.of_nat fuel ->
  exists r, messages b k r /\
    runM (hstrp_data rt fuel) (at_ b k 0) = rmap (fun l => (l, at_ b (blen b) 0)) r.
Proof.
  induction fuel as [|fuel IH]; intros b k Hk Hf; [lia|].
  cbn [hstrp_data]. rewrite runM_bind, run_is_eof by (lia || reflexivity). change (0 / 8) with 0. rewrite Z.add_0_r.
  destruct (Z.leb_spec (blen b) k).
  - exists (Ok []). split; [apply messages_end; lia|]. rewrite runM_ret. replace k with (blen b) by lia. reflexivity.
  - rewrite runM_bind. pose proof (d_hdap_strict b k Hk) as D. unfold agrees in D.
    destruct (hdap_at b k) as [[m e]|x] eqn:Hm.
    + destruct D as [-> He]. destruct (IH b e ltac:(lia) ltac:(lia)) as [r [Hr Ha]].
      exists (rmap (cons m) r). split; [eapply messages_cons; eassumption|].
      rewrite runM_bind, Ha. destruct r as [l|x]; reflexivity.
    + rewrite D. exists (Err x). split; [apply messages_bad; assumption|reflexivity].
Qed.

Lemma messages_det b k r : messages b k r -> forall r', messages b k r' -> r = r'.
Proof.
  induction 1 as [k Hk|k m e r Hk Hm _ IH|k x Hk Hm]; intros r' H'; inversion H'; try lia; try congruence.
  match goal with H1 : hdap_at b k = Ok _, H2 : hdap_at b k = Ok _ |- _ => rewrite H1 in H2; injection H2 as -> -> end.
  f_equal. apply IH. assumption.
Qed.
Lemma options_det b k r : options b k r -> forall r', options b k r' -> r = r'.
Proof.
  induction 1 as [k o e Ho Hb|k o e r Ho Hb _ IH|k x Ho]; intros r' H'; inversion H'; subst; try congruence.
  match goal with H1 : option_at b k = Ok _, H2 : option_at b k = Ok _ |- _ => rewrite H1 in H2; injection H2 as -> -> end.
  f_equal. apply IH. assumption.
Qed.

Lemma run_with_fuel {A} (loop : nat -> M A) b k c : runM (with_fuel loop) (at_ b k c) = runM (loop (S (List.length b))) (at_ b k c).
Proof. Transparent at_. reflexivity. Opaque at_. Qed.

Lemma fields_hstrp_len b h : fields b 0 L_HyteraSimpleTransportReliabilityProtocol = Ok h -> 6 <= blen b.
Proof.
  unfold L_HyteraSimpleTransportReliabilityProtocol. cbn [fields decode f_off f_kind f_name kwidth nwidth].
  repeat (match goal with |- context [if fits ?b ?k ?c then _ else _] => destruct (fits b k c) eqn:? end; [try (destruct (bytes_eqb _ _); [|discriminate])|discriminate]).
  intros _. match goal with H : fits b 0 (32 + 16) = true |- _ => apply fits_iff in H end. lia.
Qed.

(** the outcome, as a function of the options and the messages *)
Definition hstrp_result (b : bytes) (ro : res (attrs * Z)) (rd : res attrs) : res (pyval * Z) :=
  let* h := fields b 0 L_HyteraSimpleTransportReliabilityProtocol in
  let* o := ro in let* d := rd in
  Ok (VObj "HyteraSimpleTransportReliabilityProtocol" (h ++ fst o ++ d), blen b).

Lemma hstrp_meets b : hstrp b (from_bytes (p_HyteraSimpleTransportReliabilityProtocol rt) b).
Proof.
  rewrite from_bytes_runM, at_init. pose proof (blen_nonneg b) as Hb0.
  assert (A : exists ro rd,
    (6 <= blen b ->
    (if (6 <? blen b) && bit b 26 && negb (bit b 30)
     then exists r, options b 6 r /\ ro = rmap (fun x => ([("options", VList (fst x))], snd x)) r
     else ro = Ok ([], 6)) /\
    (forall ao k, ro = Ok (ao, k) ->
       if k <? blen b then
         if bit b 27 || bit b 28 || bit b 29 then rd = Ok [("extra_data", VBytes (rest b k))]
         else exists r, messages b k r /\ rd = rmap (fun l => [("data", VList l)]) r
       else rd = Ok [])) /\
    agrees b 0 (runM (p_HyteraSimpleTransportReliabilityProtocol rt) (at_ b 0 0)) (hstrp_result b ro rd)).
  2:{ destruct A as [ro [rd [A1 A2]]]. unfold agrees, hstrp_result in A2.
      destruct (fields b 0 L_HyteraSimpleTransportReliabilityProtocol) as [h|x] eqn:Hh.
      - destruct (A1 (fields_hstrp_len b h Hh)) as [B1 B2].
        pose proof (hstrp_ok b h ro rd Hh B1 B2) as C. cbn [rbind] in A2.
        destruct ro as [o|x]; cbn [rbind] in *; [|rewrite A2; exact C].
        destruct rd as [d|x]; cbn [rbind] in *; [destruct A2 as [A2 _]|]; rewrite A2; exact C.
      - cbn [rbind] in A2. rewrite A2. now apply hstrp_bad. }
  destruct (Z_lt_le_dec (blen b) 6) as [Hs|Hl].
  { exists (Ok ([], 6)), (Ok []). split; [lia|].
    unfold p_HyteraSimpleTransportReliabilityProtocol, hstrp_result, L_HyteraSimpleTransportReliabilityProtocol.
    flds. exfalso. blens. }
  (* the options *)
  assert (O : exists ro, 
     (if (6 <? blen b) && bit b 26 && negb (bit b 30)
     then exists r, options b 6 r /\ ro = rmap (fun x => ([("options", VList (fst x))], snd x)) r
     else ro = Ok ([], 6)) /\
     agrees b 6 (runM (if negb (blen b <=? 6) && negb (bit b 30) && bit b 26
        then (l <- with_fuel (hstrp_options rt);; ret (Some (VList l))) else none) (at_ b 6 0))
       (rmap (fun x => (match fst x with [] => None | (_, v) :: _ => Some v end, snd x)) ro)
     /\ (forall ao k, ro = Ok (ao, k) -> ao = [] \/ exists v, ao = [("options", v)])).
  { replace (negb (blen b <=? 6)) with (6 <? blen b) by (destruct (Z.leb_spec (blen b) 6), (Z.ltb_spec 6 (blen b)); lia || reflexivity).
    destruct (6 <? blen b), (bit b 30), (bit b 26); cbn [andb negb]; cbv iota.
    3: { destruct (run_options (S (List.length b)) b 6 ltac:(lia) ltac:(unfold blen in *; lia)) as [r [R1 R2]].
      exists (rmap (fun x => ([("options", VList (fst x))], snd x)) r). split; [exists r; split; [assumption|reflexivity]|].
      rewrite runM_bind, run_with_fuel. unfold agrees in *. destruct r as [[l e]|x]; cbn [rmap fst snd] in *.
      - destruct R2 as [-> R2]. rewrite runM_ret. split; [split; [reflexivity|lia]|]. intros ao k [= <- <-]. right. eauto.
      - rewrite R2. split; [reflexivity|discriminate]. }
    all: exists (Ok ([], 6)); split; [reflexivity|]; split; [|intros ao k [= <- <-]; auto]; cbn [rmap fst snd];
      unfold none; rewrite runM_ret; split; [reflexivity|lia]. }
  destruct O as [ro [O1 [O2 O3]]].
  (* the messages *)
  assert (D : exists rd, (forall ao k, ro = Ok (ao, k) ->
       if k <? blen b then
         if bit b 27 || bit b 28 || bit b 29 then rd = Ok [("extra_data", VBytes (rest b k))]
         else exists r, messages b k r /\ rd = rmap (fun l => [("data", VList l)]) r
       else rd = Ok [])).
  { destruct ro as [[ao k]|x]; [|exists (Ok []); discriminate].
    cbn [rmap fst snd] in O2. destruct O2 as [_ Hk].
    destruct (Z.ltb_spec k (blen b)) as [Hlt|Hge].
    - destruct (bit b 27 || bit b 28 || bit b 29) eqn:Hc.
      + exists (Ok [("extra_data", VBytes (rest b k))]). intros ao' k' [= <- <-].
        destruct (Z.ltb_spec k (blen b)); [reflexivity|lia].
      + destruct (run_messages (S (List.length b)) b k ltac:(lia) ltac:(unfold blen in *; lia)) as [r [R1 R2]].
        exists (rmap (fun l => [("data", VList l)]) r). intros ao' k' [= <- <-].
        destruct (Z.ltb_spec k (blen b)); [|lia]. exists r. auto.
    - exists (Ok []). intros ao' k' [= <- <-]. destruct (Z.ltb_spec k (blen b)); [lia|reflexivity]. }
  destruct D as [rd D].
  exists ro, rd. split; [intros _; split; assumption|].
  unfold p_HyteraSimpleTransportReliabilityProtocol, hstrp_result, L_HyteraSimpleTransportReliabilityProtocol.
  flds. pos. change (8 * 0) with 0. rewrite ?Z.add_0_l.
  erewrite step_ok by (apply run_is_eof; zside). change (6 + 0 / 8) with 6.
  rewrite runM_bind. 
  destruct ro as [[ao k]|x]; cbn [rmap fst snd rbind] in *; [|cbn [agrees] in O2; rewrite O2; reflexivity].
  destruct O2 as [-> Hk].
  erewrite step_ok by (apply run_is_eof; zside). change (0 / 8) with 0. rewrite Z.add_0_r.
  specialize (D ao k eq_refl).
  assert (Hao : opt "options" (match ao with [] => None | (_, v) :: _ => Some v end) = ao).
  { destruct (O3 ao k eq_refl) as [->|[? ->]]; reflexivity. }
  rewrite Hao.
  destruct (Z.leb_spec (blen b) k) as [Hle|Hgt].
  - destruct (Z.ltb_spec k (blen b)); [lia|]. subst rd. cbn [negb andb rbind]. cbv iota. unfold none at 1. rewrite step_ret.
    erewrite step_ok by (apply run_is_eof; zside). change (0 / 8) with 0. rewrite Z.add_0_r.
    destruct (Z.leb_spec (blen b) k); [|lia]. cbn [negb]. cbv iota. unfold none. rewrite step_ret.
    replace k with (blen b) by lia. leaf.
  - destruct (Z.ltb_spec k (blen b)); [|lia]. cbn [negb andb]. cbv iota.
    replace (negb (bit b 27) && negb (bit b 28) && negb (bit b 29)) with (negb (bit b 27 || bit b 28 || bit b 29))
      by (destruct (bit b 27), (bit b 28), (bit b 29); reflexivity).
    destruct (bit b 27 || bit b 28 || bit b 29) eqn:Hc; cbn [negb]; cbv iota.
    + subst rd. cbn [rbind]. unfold none at 1. rewrite step_ret.
      erewrite step_ok by (apply run_is_eof; zside). change (0 / 8) with 0. rewrite Z.add_0_r.
      destruct (Z.leb_spec (blen b) k); [lia|]. cbn [negb]. cbv iota. unfold some, vfull. rewrite !step_assoc.
      erewrite step_ok by (apply run_read_bytes_full; zside). change (0 / 8) with 0. rewrite Z.add_0_r.
      rewrite !step_ret. leaf.
    + destruct D as [r [R1 ->]]. rewrite step_assoc, runM_bind, run_with_fuel.
      destruct (run_messages (S (List.length b)) b k ltac:(lia) ltac:(unfold blen in *; lia)) as [r' [R1' R2]].
      rewrite R2. assert (r' = r) as -> by (eapply messages_det; eassumption).
      destruct r as [l|x]; cbn [rmap rbind]; [|reflexivity].
      rewrite step_ret. erewrite step_ok by (apply run_is_eof; zside). change (0 / 8) with 0. rewrite Z.add_0_r.
      destruct (Z.leb_spec (blen b) (blen b)); [|lia]. cbn [negb]. cbv iota. unfold none. rewrite step_ret.
      leaf.
Qed.
End S.
