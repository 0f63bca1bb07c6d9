(** The homebrew parsers meet their specification. *)
From Verif Require Import PyBase Runtime Codec CodecSpec CodecProofs Spec RuntimeProofs Enums EnumProofs Getters HomebrewModel HomebrewSpec.
Open Scope string_scope.
Open Scope list_scope.
Open Scope Z_scope.

Ltac straight := intros; apply runs_obj; [lia|assumption|discriminate|seqok].

Section S.
Context (rt : runtime).
Notation runs8 p w f := (forall c, 0 <= c -> c mod 8 = 0 -> runs_at p c (KSub w f)).

Lemma r_Homebrew2015_TypeMasterPing : runs8 (p_Homebrew2015_TypeMasterPing rt) 56 (object "Homebrew2015.TypeMasterPing" L_Homebrew2015_TypeMasterPing).
Proof. straight. Qed.
#[local] Hint Extern 1 (runs_at (p_Homebrew2015_TypeMasterPing rt) _ _) => apply r_Homebrew2015_TypeMasterPing; [lia|reflexivity] : runs.

Lemma r_Homebrew2015_TypeRepeaterPong : runs8 (p_Homebrew2015_TypeRepeaterPong rt) 56 (object "Homebrew2015.TypeRepeaterPong" L_Homebrew2015_TypeRepeaterPong).
Proof. straight. Qed.
#[local] Hint Extern 1 (runs_at (p_Homebrew2015_TypeRepeaterPong rt) _ _) => apply r_Homebrew2015_TypeRepeaterPong; [lia|reflexivity] : runs.

Lemma r_Homebrew2015_TypeRepeaterLoginResponse : runs8 (p_Homebrew2015_TypeRepeaterLoginResponse rt) 288 (object "Homebrew2015.TypeRepeaterLoginResponse" L_Homebrew2015_TypeRepeaterLoginResponse).
Proof. straight. Qed.
#[local] Hint Extern 1 (runs_at (p_Homebrew2015_TypeRepeaterLoginResponse rt) _ _) => apply r_Homebrew2015_TypeRepeaterLoginResponse; [lia|reflexivity] : runs.

Lemma r_Homebrew2015_TypeRepeaterLoginRequest : runs8 (p_Homebrew2015_TypeRepeaterLoginRequest rt) 32 (object "Homebrew2015.TypeRepeaterLoginRequest" L_Homebrew2015_TypeRepeaterLoginRequest).
Proof. straight. Qed.
#[local] Hint Extern 1 (runs_at (p_Homebrew2015_TypeRepeaterLoginRequest rt) _ _) => apply r_Homebrew2015_TypeRepeaterLoginRequest; [lia|reflexivity] : runs.

Lemma r_Homebrew2015_TypeMasterNotAccept : runs8 (p_Homebrew2015_TypeMasterNotAccept rt) 48 (object "Homebrew2015.TypeMasterNotAccept" L_Homebrew2015_TypeMasterNotAccept).
Proof. straight. Qed.
#[local] Hint Extern 1 (runs_at (p_Homebrew2015_TypeMasterNotAccept rt) _ _) => apply r_Homebrew2015_TypeMasterNotAccept; [lia|reflexivity] : runs.

Lemma r_Homebrew2015_TypeMasterClosing : runs8 (p_Homebrew2015_TypeMasterClosing rt) 40 (object "Homebrew2015.TypeMasterClosing" L_Homebrew2015_TypeMasterClosing).
Proof. straight. Qed.
#[local] Hint Extern 1 (runs_at (p_Homebrew2015_TypeMasterClosing rt) _ _) => apply r_Homebrew2015_TypeMasterClosing; [lia|reflexivity] : runs.

Lemma r_Homebrew2015_TypeRepeaterClosing : runs8 (p_Homebrew2015_TypeRepeaterClosing rt) 40 (object "Homebrew2015.TypeRepeaterClosing" L_Homebrew2015_TypeRepeaterClosing).
Proof. straight. Qed.
#[local] Hint Extern 1 (runs_at (p_Homebrew2015_TypeRepeaterClosing rt) _ _) => apply r_Homebrew2015_TypeRepeaterClosing; [lia|reflexivity] : runs.

Lemma r_Mmdvm2020_TypeMasterPong : runs8 (p_Mmdvm2020_TypeMasterPong rt) 56 (object "Mmdvm2020.TypeMasterPong" L_Mmdvm2020_TypeMasterPong).
Proof. straight. Qed.
#[local] Hint Extern 1 (runs_at (p_Mmdvm2020_TypeMasterPong rt) _ _) => apply r_Mmdvm2020_TypeMasterPong; [lia|reflexivity] : runs.

Lemma r_Mmdvm2020_TypeRadioPosition : runs8 p_Mmdvm2020_TypeRadioPosition 80 (object "Mmdvm2020.TypeRadioPosition" L_Mmdvm2020_TypeRadioPosition).
Proof. straight. Qed.
#[local] Hint Extern 1 (runs_at p_Mmdvm2020_TypeRadioPosition _ _) => apply r_Mmdvm2020_TypeRadioPosition; [lia|reflexivity] : runs.

Lemma r_Mmdvm2020_TypeTalkerAlias : runs8 (p_Mmdvm2020_TypeTalkerAlias rt) 96 (object "Mmdvm2020.TypeTalkerAlias" L_Mmdvm2020_TypeTalkerAlias).
Proof. straight. Qed.
#[local] Hint Extern 1 (runs_at (p_Mmdvm2020_TypeTalkerAlias rt) _ _) => apply r_Mmdvm2020_TypeTalkerAlias; [lia|reflexivity] : runs.

Lemma r_Mmdvm2020_TypeRepeaterLoginResponse : runs8 (p_Mmdvm2020_TypeRepeaterLoginResponse rt) 288 (object "Mmdvm2020.TypeRepeaterLoginResponse" L_Mmdvm2020_TypeRepeaterLoginResponse).
Proof. straight. Qed.
#[local] Hint Extern 1 (runs_at (p_Mmdvm2020_TypeRepeaterLoginResponse rt) _ _) => apply r_Mmdvm2020_TypeRepeaterLoginResponse; [lia|reflexivity] : runs.

Lemma r_Mmdvm2020_TypeRepeaterLoginRequest : runs8 (p_Mmdvm2020_TypeRepeaterLoginRequest rt) 32 (object "Mmdvm2020.TypeRepeaterLoginRequest" L_Mmdvm2020_TypeRepeaterLoginRequest).
Proof. straight. Qed.
#[local] Hint Extern 1 (runs_at (p_Mmdvm2020_TypeRepeaterLoginRequest rt) _ _) => apply r_Mmdvm2020_TypeRepeaterLoginRequest; [lia|reflexivity] : runs.

Lemma r_Mmdvm2020_TypeMasterNotAccept : runs8 (p_Mmdvm2020_TypeMasterNotAccept rt) 48 (object "Mmdvm2020.TypeMasterNotAccept" L_Mmdvm2020_TypeMasterNotAccept).
Proof. straight. Qed.
#[local] Hint Extern 1 (runs_at (p_Mmdvm2020_TypeMasterNotAccept rt) _ _) => apply r_Mmdvm2020_TypeMasterNotAccept; [lia|reflexivity] : runs.

Lemma r_Mmdvm2020_TypeMasterRepeaterAck : runs8 (p_Mmdvm2020_TypeMasterRepeaterAck rt) 48 (object "Mmdvm2020.TypeMasterRepeaterAck" L_Mmdvm2020_TypeMasterRepeaterAck).
Proof. straight. Qed.
#[local] Hint Extern 1 (runs_at (p_Mmdvm2020_TypeMasterRepeaterAck rt) _ _) => apply r_Mmdvm2020_TypeMasterRepeaterAck; [lia|reflexivity] : runs.

Lemma r_Mmdvm2020_TypeMasterClosing : runs8 (p_Mmdvm2020_TypeMasterClosing rt) 40 (object "Mmdvm2020.TypeMasterClosing" L_Mmdvm2020_TypeMasterClosing).
Proof. straight. Qed.
#[local] Hint Extern 1 (runs_at (p_Mmdvm2020_TypeMasterClosing rt) _ _) => apply r_Mmdvm2020_TypeMasterClosing; [lia|reflexivity] : runs.

Lemma r_Mmdvm2020_TypeRepeaterClosing : runs8 (p_Mmdvm2020_TypeRepeaterClosing rt) 40 (object "Mmdvm2020.TypeRepeaterClosing" L_Mmdvm2020_TypeRepeaterClosing).
Proof. straight. Qed.
#[local] Hint Extern 1 (runs_at (p_Mmdvm2020_TypeRepeaterClosing rt) _ _) => apply r_Mmdvm2020_TypeRepeaterClosing; [lia|reflexivity] : runs.

Lemma r_Mmdvm2020_TypeRepeaterPing : runs8 (p_Mmdvm2020_TypeRepeaterPing rt) 56 (object "Mmdvm2020.TypeRepeaterPing" L_Mmdvm2020_TypeRepeaterPing).
Proof. straight. Qed.
#[local] Hint Extern 1 (runs_at (p_Mmdvm2020_TypeRepeaterPing rt) _ _) => apply r_Mmdvm2020_TypeRepeaterPing; [lia|reflexivity] : runs.


Lemma seq_snoc l n m s :
  runM (seq (l ++ [(n, m)])) s = runM (a <- seq l;; v <- m;; ret (a ++ [(n, v)])) s.
Proof.
  revert s. induction l as [|[n0 m0] l IH]; intros s; cbn [app seq].
  - rewrite !runM_bind. rewrite runM_ret. cbv iota beta. rewrite runM_bind. destruct (runM m s) as [[v s']|e]; reflexivity.
  - rewrite !runM_bind. destruct (runM m0 s) as [[v0 s0]|e]; [|reflexivity].
    rewrite !runM_bind. rewrite IH. rewrite !runM_bind.
    destruct (runM (seq l) s0) as [[a s1]|e]; [|reflexivity].
    rewrite runM_ret, !runM_bind. destruct (runM m s1) as [[v s2]|e]; reflexivity.
Qed.

Lemma run_str_full e b k c : 0 <= k -> 0 <= c -> c mod 8 = 0 -> fits b k c = true ->
  runM (vstr_full rt e) (at_ b k c) =
  match text_rest e b (k + c / 8) with Ok v => Ok (v, at_ b (blen b) 0) | Err x => Err x end.
Proof.
  intros. unfold vstr_full. rewrite runM_bind, run_read_bytes_full by assumption.
  rewrite step_lift. unfold py_decode, text_rest. destruct (decode_text _ _); reflexivity.
Qed.

(** fixed fields, then text up to the end *)
Lemma run_obj_text cls l n fs b k : seq_ok 0 l fs -> fs <> [] -> 0 <= k -> fs_end fs 0 mod 8 = 0 -> 0 <= fs_end fs 0 ->
  runM (obj cls (l ++ [(n, vstr_full rt ASCII)])) (at_ b k 0) =
  match (let* h := fields b k fs in let* t := text_rest ASCII b (k + fs_end fs 0 / 8) in Ok (VObj cls (h ++ [(n, t)]))) with
  | Ok v => Ok (v, at_ b (blen b) 0)
  | Err e => Err e
  end.
Proof.
  intros Hs Hne Hk Hal Hc. unfold obj. rewrite runM_bind, seq_snoc, !runM_bind.
  destruct (run_seq l fs 0 Hs b k Hk ltac:(left; reflexivity)) as [E1 E2]. rewrite E1.
  destruct (fields b k fs) as [a|e]; [|reflexivity]. cbn [rbind].
  destruct (E2 a eq_refl) as [E3|E3]; [contradiction|].
  rewrite runM_bind, run_str_full by assumption.
  destruct (text_rest _ _ _); reflexivity.
Qed.

(** result without the final stream state *)
Notation value m s := (rmap fst (runM m s)).

Lemma value_bind {A B} (m : M A) (k : A -> M B) s :
  value (bind m k) s = match runM m s with Ok (a, s') => value (k a) s' | Err e => Err e end.
Proof. rewrite runM_bind. destruct (runM m s) as [[a s']|e]; reflexivity. Qed.

Lemma cmd_value m f b : value m (at_ b 4 0) = f b 4 ->
  value (v <- m;; ret [("command_data", v)]) (at_ b 4 0) = cmd f b.
Proof.
  intros H. rewrite value_bind. unfold cmd. rewrite <- H. destruct (runM m _) as [[v s]|e]; reflexivity.
Qed.

Lemma runs_value m w f b : runs_at m 0 (KSub w f) -> value m (at_ b 4 0) = f b 4.
Proof.
  intros H. destruct (H b 4 ltac:(lia) ltac:(left; reflexivity)) as [E _]. rewrite E. cbn [decode].
  change (4 + 0 / 8) with 4. destruct (f b _); reflexivity.
Qed.

Ltac dmrd := 
  unf; spec_cbn; do 30 (try rd1; try fit); cbn [rbind];
  match goal with |- context [negb (blen ?b <=? ?p)] =>
    let H := fresh in destruct (Z.leb_spec (blen b) p) as [H|H]; cbn [negb]; repeat rd1 end;
  repeat fit_lia; repeat rd1; cbn [negb];
  repeat match goal with |- context [blen ?b <=? ?p] =>
    let H := fresh in destruct (Z.leb_spec (blen b) p) as [H|H]; cbn [negb]; repeat rd1; repeat fit_lia; repeat rd1 end;
  repeat match goal with |- context [?p <? blen ?b] =>
    let H := fresh in destruct (Z.ltb_spec p (blen b)) as [H|H]; try (exfalso; lia) end;
  cbn [rmap fst opt app]; reflexivity.

Lemma dmrd_hb b : value (p_Homebrew2015_TypeDmrData rt) (at_ b 4 0) = Homebrew2015_dmrd b 4.
Proof. unfold p_Homebrew2015_TypeDmrData, Homebrew2015_dmrd, L_Homebrew2015_TypeDmrData. dmrd. Qed.
Lemma dmrd_mm b : value (p_Mmdvm2020_TypeDmrData rt) (at_ b 4 0) = Mmdvm2020_dmrd b 4.
Proof. unfold p_Mmdvm2020_TypeDmrData, Mmdvm2020_dmrd, L_Mmdvm2020_TypeDmrData. dmrd. Qed.

Lemma ack_hb b : value (p_Homebrew2015_TypeMasterRepeaterAck rt) (at_ b 4 0) = Homebrew2015_ack b 4.
Proof.
  unfold p_Homebrew2015_TypeMasterRepeaterAck, Homebrew2015_ack, L_Homebrew2015_TypeMasterRepeaterAck. unf.
  eassert (H : runs_at (expect_bytes rt (B [67; 75]) "/types/type_master_repeater_ack/seq/0") 0 _) by runs1.
  rewrite (step_runs _ _ b 4 0 _ H) by zside.
  cbn [fields f_off f_kind f_name]. destruct (decode b 4 0 _) as [v|e]; [|reflexivity].
  cbn [kwidth]. change (blen (B [67;75])) with 2. norm_lits. spec_cbn.
  fit; [|cbn; fit_lia; reflexivity]. rd1. fit.
  all: repeat fit_lia; cbn [rbind]; repeat rd1; try reflexivity.
  destruct (Z.leb_spec (blen b) 10); destruct (Z.ltb_spec 10 (blen b)); try lia; cbn [negb rbind].
  - repeat rd1. reflexivity.
  - repeat rd1. destruct (fits b 4 80); repeat rd1; reflexivity.
Qed.

Lemma config_hb b : value (p_Homebrew2015_TypeRepeaterConfiguration rt) (at_ b 4 0) = Homebrew2015_config b 4.
Proof.
  unfold p_Homebrew2015_TypeRepeaterConfiguration, Homebrew2015_config.
  match goal with |- context [obj ?c ?l] => let l' := eval cbv [removelast] in (removelast l) in
    change (obj c l) with (obj c (l' ++ [("unparsed_data", vstr_full rt ASCII)])) end.
  erewrite (run_obj_text _ _ _ L_Homebrew2015_TypeRepeaterConfiguration); [|seqok|discriminate|lia|reflexivity|cbn; lia].
  change (fs_end L_Homebrew2015_TypeRepeaterConfiguration 0 / 8) with 298.
  match goal with |- rmap _ match ?r with _ => _ end = _ => destruct r; reflexivity end.
Qed.
Lemma config_mm b : value (p_Mmdvm2020_TypeRepeaterConfiguration rt) (at_ b 4 0) = Mmdvm2020_config b 4.
Proof.
  unfold p_Mmdvm2020_TypeRepeaterConfiguration, Mmdvm2020_config.
  match goal with |- context [obj ?c ?l] => let l' := eval cbv [removelast] in (removelast l) in
    change (obj c l) with (obj c (l' ++ [("unparsed_data", vstr_full rt ASCII)])) end.
  erewrite (run_obj_text _ _ _ L_Mmdvm2020_TypeRepeaterConfiguration); [|seqok|discriminate|lia|reflexivity|cbn; lia].
  change (fs_end L_Mmdvm2020_TypeRepeaterConfiguration 0 / 8) with 298.
  match goal with |- rmap _ match ?r with _ => _ end = _ => destruct r; reflexivity end.
Qed.
Lemma options_mm b : value (p_Mmdvm2020_TypeRepeaterOptions rt) (at_ b 4 0) = Mmdvm2020_options b 4.
Proof.
  unfold p_Mmdvm2020_TypeRepeaterOptions, Mmdvm2020_options.
  match goal with |- context [obj ?c ?l] => let l' := eval cbv [removelast] in (removelast l) in
    change (obj c l) with (obj c (l' ++ [("options", vstr_full rt ASCII)])) end.
  erewrite (run_obj_text _ _ _ L_Mmdvm2020_TypeRepeaterOptions); [|seqok|discriminate|lia|reflexivity|cbn; lia].
  change (fs_end L_Mmdvm2020_TypeRepeaterOptions 0 / 8) with 4.
  match goal with |- rmap _ match ?r with _ => _ end = _ => destruct r; reflexivity end.
Qed.

(** the lookahead at byte 4 restores the position *)
Lemma fifth_run b k : 0 <= k ->
  runM (Homebrew2015_fifth_letter rt) (at_ b k 0) =
  if blen b <=? 4 then Err EOFError
  else match decode_text ASCII (slice b 4 1) with
       | Some c => Ok (c, at_ b k 0)
       | None => Err (UnicodeDecodeError "ascii")
       end.
Proof.
  intros Hk. unfold Homebrew2015_fifth_letter. unf. repeat rd1.
  destruct (Z.leb_spec (blen b) 4).
  - fit_lia. reflexivity.
  - fit_lia. unfold py_decode. repeat rd1. destruct (decode_text ASCII _); [|reflexivity].
    repeat rd1. now rewrite Z.add_0_r.
Qed.
Lemma fifth_same : Mmdvm2020_fifth_letter rt = Homebrew2015_fifth_letter rt.
Proof. reflexivity. Qed.

Lemma rptc_hb b :
  value (fifth <- Homebrew2015_fifth_letter rt;; v <- p_Homebrew2015_TypeRepeaterConfigurationOrClosing rt fifth;;
         ret [("_m_fifth_letter", VStr fifth); ("command_data", v)]) (at_ b 4 0) = Homebrew2015_config_or_closing b.
Proof.
  rewrite value_bind, fifth_run by lia. unfold Homebrew2015_config_or_closing.
  destruct (blen b <=? 4); [reflexivity|].
  destruct (decode_text ASCII (slice b 4 1)) as [c|] eqn:Hd; [|reflexivity].
  rewrite value_bind. unfold p_Homebrew2015_TypeRepeaterConfigurationOrClosing.
  rewrite (str_eqb_bytes ASCII (slice b 4 1) c "L") by (auto || reflexivity).
  destruct (bytes_eqb _ _); rewrite runM_bind.
  - rewrite <- (runs_value _ _ _ b (r_Homebrew2015_TypeRepeaterClosing 0 ltac:(lia) eq_refl)).
    destruct (runM _ (at_ b 4 0)) as [[v s]|e]; reflexivity.
  - rewrite <- config_hb. destruct (runM _ (at_ b 4 0)) as [[v s]|e]; reflexivity.
Qed.
Lemma rptc_mm b :
  value (fifth <- Mmdvm2020_fifth_letter rt;; v <- p_Mmdvm2020_TypeRepeaterConfigurationOrClosing rt fifth;;
         ret [("_m_fifth_letter", VStr fifth); ("command_data", v)]) (at_ b 4 0) = Mmdvm2020_config_or_closing b.
Proof.
  rewrite value_bind, fifth_same, fifth_run by lia. unfold Mmdvm2020_config_or_closing.
  destruct (blen b <=? 4); [reflexivity|].
  destruct (decode_text ASCII (slice b 4 1)) as [c|] eqn:Hd; [|reflexivity].
  rewrite value_bind. unfold p_Mmdvm2020_TypeRepeaterConfigurationOrClosing.
  rewrite (str_eqb_bytes ASCII (slice b 4 1) c "L") by (auto || reflexivity).
  destruct (bytes_eqb _ _); rewrite runM_bind.
  - rewrite <- (runs_value _ _ _ b (r_Mmdvm2020_TypeRepeaterClosing 0 ltac:(lia) eq_refl)).
    destruct (runM _ (at_ b 4 0)) as [[v s]|e]; reflexivity.
  - rewrite <- config_mm. destruct (runM _ (at_ b 4 0)) as [[v s]|e]; reflexivity.
Qed.

Lemma from_bytes_value {A} (m : M A) b : from_bytes m b = value m (at_ b 0 0).
Proof. rewrite from_bytes_runM, at_init. destruct (runM m _) as [[a s]|e]; reflexivity. Qed.

Ltac cmds p t :=
  lazymatch t with
  | (?k, _) :: ?t' => let E := fresh "E" in destruct (bytes_eqb p (blit k)) eqn:E; [|cmds p t']
  | _ => idtac
  end.
Ltac lit_cmp :=
  repeat match goal with |- context [bytes_eqb (blit ?x) (blit ?y)] =>
    let r := eval vm_compute in (bytes_eqb (blit x) (blit y)) in change (bytes_eqb (blit x) (blit y)) with r end; cbv iota.

Lemma find_none p t : forallb (fun kv => negb (bytes_eqb p (blit (fst kv)))) t = true -> find_command p t = None.
Proof.
  induction t as [|[k f] t IH]; [reflexivity|]. cbn [forallb find_command fst]. intros H.
  apply andb_true_iff in H as [H1 H2]. apply negb_true_iff in H1. rewrite H1. auto.
Qed.

Ltac body :=
  lazymatch goal with
  | |- _ = Homebrew2015_config_or_closing _ => apply rptc_hb
  | |- _ = Mmdvm2020_config_or_closing _ => apply rptc_mm
  | |- _ = cmd _ _ => apply cmd_value;
      lazymatch goal with
      | |- _ = Homebrew2015_dmrd _ _ => apply dmrd_hb
      | |- _ = Mmdvm2020_dmrd _ _ => apply dmrd_mm
      | |- _ = Homebrew2015_ack _ _ => apply ack_hb
      | |- _ = Mmdvm2020_options _ _ => apply options_mm
      | |- _ = object _ L_Mmdvm2020_TypeRepeaterBeacon _ _ => reflexivity
      | |- _ = object _ _ _ _ => eapply runs_value; runs1
      end
  end.

Ltac protocol e tbl :=
  rewrite from_bytes_value, value_bind; unfold read_str;
  rewrite runM_bind, run_read_bytes by lia; norm_lits; cbv zeta;
  match goal with |- context [blen ?b <? 4] => destruct (Z.ltb_spec (blen b) 4); fit_lia; [reflexivity|] end;
  cbv iota; rewrite runM_lift; unfold py_decode;
  let pf := fresh "pf" in let Hpf := fresh "Hpf" in let HH := fresh "HH" in
  match goal with |- context [decode_text e ?x] => destruct (decode_text e x) as [pf|] eqn:Hpf; [|reflexivity] end;
  cbv iota; rewrite value_bind;
  repeat match goal with |- context [str_eqb pf ?k] =>
    rewrite (str_eqb_bytes e _ pf k ltac:(auto) eq_refl Hpf) end;
  rewrite (at_aligned _ 0 32) by reflexivity; norm_lits;
  match goal with |- match ?r with Ok _ => _ | Err _ => _ end = rbind ?d _ =>
    assert (HH : rmap fst r = d); [|rewrite <- HH; destruct r as [[a s]|er]; reflexivity] end;
  match goal with |- context [slice ?b 0 4] =>
    let tb := eval cbv [tbl] in tbl in
    let p := fresh "p" in set (p := slice b 0 4) in *; clearbody p; clear Hpf;
    cmds p tb;
    [ .. | rewrite (find_none p tbl) by
             (unfold tbl; cbn [forallb fst]; repeat match goal with E : bytes_eqb p _ = false |- _ => rewrite E; clear E end; reflexivity);
           cbv iota;  reflexivity ] end.

Lemma homebrew_ok b : from_bytes (p_Homebrew2015 rt) b = Homebrew2015_spec b.
Proof.
  unfold p_Homebrew2015, Homebrew2015_spec. protocol UTF8 Homebrew2015_commands.
  all: match goal with E : bytes_eqb ?p _ = true |- _ => apply bytes_eqb_true in E; rewrite E in *; clear E end;
       unfold Homebrew2015_commands, find_command; lit_cmp; body.
Qed.
Lemma mmdvm_ok b : from_bytes (p_Mmdvm2020 rt) b = Mmdvm2020_spec b.
Proof.
  unfold p_Mmdvm2020, Mmdvm2020_spec. protocol ASCII Mmdvm2020_commands.
  all: match goal with E : bytes_eqb ?p _ = true |- _ => apply bytes_eqb_true in E; rewrite E in *; clear E end;
       unfold Mmdvm2020_commands, find_command; lit_cmp; body.
Qed.
End S.
