(** Parsers that never look at the end of the buffer: what they read does not change when bytes are
    appended.  (Support for C06.) *)
From Verif Require Import PyBase Runtime Codec Enums Getters EtsiModel HomebrewModel HyteraModel MotorolaModel AllParsers.
Open Scope string_scope.
Open Scope list_scope.
Open Scope Z_scope.

(** the same stream over a longer buffer *)
Definition extend (s : stream) (t : bytes) : stream :=
  {| s_buf := s_buf s ++ t; s_pos := s_pos s; s_bits := s_bits s; s_left := s_left s |}.
Definition stable {A} (m : M A) : Prop := forall s a s' t, m s = (Ok a, s') -> m (extend s t) = (Ok a, extend s' t).

Lemma st_ret {A} (a : A) : stable (ret a).
Proof. intros s x s' t E. unfold ret in *. assert (x = a) by congruence. assert (s' = s) by congruence. subst. reflexivity. Qed.
Lemma st_fail {A} e : stable (@fail A e).
Proof. intros s x s' t E. discriminate. Qed.
Lemma st_lift {A} (r : res A) : stable (lift r).
Proof. intros s x s' t E. unfold lift in *. assert (r = Ok x) by congruence. assert (s' = s) by congruence. subst. reflexivity. Qed.
Lemma st_bind {A B} (m : M A) (k : A -> M B) : stable m -> (forall a, stable (k a)) -> stable (bind m k).
Proof.
  intros H1 H2 s b s' t E. unfold bind in *. destruct (m s) as [[a|e] s1] eqn:Em; [|discriminate].
  rewrite (H1 _ _ _ t Em). exact (H2 a _ _ _ t E).
Qed.
Lemma st_align : stable align_to_byte.
Proof. intros s x s' t E. unfold align_to_byte in *. assert (s' = align_state s) by congruence. subst. destruct x. reflexivity. Qed.
Lemma st_raw n : stable (raw_read_bytes n).
Proof.
  intros s x s' t E. unfold raw_read_bytes in *. destruct (Z.ltb_spec n 0); [discriminate|]. unfold io_read in *. cbv beta iota zeta in *. cbn [s_pos s_buf extend] in *.
  set (rest := skipn (s_pos s) (s_buf s)) in *.
  assert (Hx : n <= blen rest -> (if blen rest <=? n then rest else firstn (Z.to_nat n) rest) = firstn (Z.to_nat n) rest).
  { intros Hr. destruct (Z.leb_spec (blen rest) n); [|reflexivity]. unfold blen in *. rewrite firstn_all2 by lia. reflexivity. }
  assert (Hr : n <= blen rest).
  { destruct (Z.leb_spec (blen rest) n); [|lia]. destruct (Z.ltb_spec (blen rest) n) as [|Hl]; [discriminate|exact Hl]. }
  rewrite (Hx Hr) in E. assert (Hn : blen (firstn (Z.to_nat n) rest) = n) by (unfold blen in *; rewrite firstn_length; lia).
  rewrite Hn, Z.ltb_irrefl in E. assert (x = firstn (Z.to_nat n) rest) by congruence.
  assert (s' = set_pos s (s_pos s + List.length x)) by congruence.
  set (rest' := skipn (s_pos s) (s_buf s ++ t)).
  assert (Hf : firstn (Z.to_nat n) rest' = firstn (Z.to_nat n) rest).
  { unfold rest'. rewrite skipn_app. fold rest. rewrite firstn_app.
    unfold blen in Hr. destruct (Nat.le_gt_cases (s_pos s) (List.length (s_buf s))) as [Hp|Hp].
    - replace (Z.to_nat n - List.length rest)%nat with 0%nat by lia. cbn [firstn]. apply app_nil_r.
    - assert (List.length rest = 0%nat) by (unfold rest; rewrite skipn_length; lia). replace (Z.to_nat n) with 0%nat by lia. reflexivity. }
  assert (Hr' : n <= blen rest').
  { unfold rest', rest, blen in *. rewrite skipn_length in *. rewrite app_length. lia. }
  assert (Hx' : (if blen rest' <=? n then rest' else firstn (Z.to_nat n) rest') = firstn (Z.to_nat n) rest').
  { destruct (Z.leb_spec (blen rest') n); [|reflexivity]. unfold blen in *. rewrite firstn_all2 by lia. reflexivity. }
  rewrite Hx', Hf, Hn, Z.ltb_irrefl. subst. reflexivity.
Qed.
Lemma st_bytes rt n : stable (read_bytes rt n).
Proof.
  intros s x s' t E. unfold read_bytes in *. replace (auto_align rt (extend s t)) with (extend (auto_align rt s) t) by (destruct rt; reflexivity).
  now apply st_raw.
Qed.
Lemma st_bits n : stable (read_bits n).
Proof.
  intros s x s' t E. unfold read_bits in *. cbn [s_left s_pos s_bits s_buf extend] in *. cbv zeta in *. destruct (0 <? n - s_left s).
  - change {| s_buf := s_buf s ++ t; s_pos := s_pos s; s_bits := s_bits s; s_left := (- (n - s_left s)) mod 8 |}
      with (extend {| s_buf := s_buf s; s_pos := s_pos s; s_bits := s_bits s; s_left := (- (n - s_left s)) mod 8 |} t).
    match type of E with context [raw_read_bytes ?k ?u] => destruct (raw_read_bytes k u) as [[y|e] s2] eqn:R end; [|discriminate].
    rewrite (st_raw _ _ _ _ t R). cbn [s_buf s_pos extend]. injection E as <- <-. reflexivity.
  - injection E as <- <-. reflexivity.
Qed.
Lemma st_pos : stable io_pos.
Proof. intros s x s' t E. unfold io_pos in *. injection E as <- <-. reflexivity. Qed.
Lemma st_seek rt n : stable (io_seek rt n).
Proof. intros s x s' t E. unfold io_seek in *. injection E as <- <-. destruct rt; reflexivity. Qed.

Create HintDb stab discriminated.
#[global] Hint Constants Opaque : stab.
#[global] Hint Variables Opaque : stab.
Ltac stab := repeat match goal with
  | |- stable (bind _ _) => apply st_bind; [|intros ?]
  | |- stable (if ?c then _ else _) => destruct c
  | |- stable (match ?c with _ => _ end) => destruct c
  | |- stable (ret _) => apply st_ret
  | |- stable (fail _) => apply st_fail
  | |- stable (lift _) => apply st_lift
  | |- stable (obj _ _) => unfold obj; cbn [seq]
  | |- stable _ => solve [auto 6 with stab]
  end.
Lemma st_u1 rt : stable (read_u1 rt). Proof. apply st_bind; [apply st_bytes|intros; apply st_ret]. Qed.
Lemma st_u2be rt : stable (read_u2be rt). Proof. apply st_bind; [apply st_bytes|intros; apply st_ret]. Qed.
Lemma st_u4be rt : stable (read_u4be rt). Proof. apply st_bind; [apply st_bytes|intros; apply st_ret]. Qed.
Lemma st_u2le rt : stable (read_u2le rt). Proof. apply st_bind; [apply st_bytes|intros; apply st_ret]. Qed.
Lemma st_u4le rt : stable (read_u4le rt). Proof. apply st_bind; [apply st_bytes|intros; apply st_ret]. Qed.
Lemma st_s2be rt : stable (read_s2be rt). Proof. apply st_bind; [apply st_bytes|intros; apply st_ret]. Qed.
Lemma st_flag : stable read_flag. Proof. apply st_bind; [apply st_bits|intros; apply st_ret]. Qed.
Lemma st_vint m : stable m -> stable (vint m). Proof. intros H. apply st_bind; [exact H|intros; apply st_ret]. Qed.
Lemma st_vbits n : stable (vbits n). Proof. apply st_vint, st_bits. Qed.
Lemma st_vflag : stable vflag. Proof. apply st_bind; [apply st_flag|intros; apply st_ret]. Qed.
Lemma st_venum E m : stable m -> stable (venum E m). Proof. intros H. apply st_bind; [exact H|intros; apply st_ret]. Qed.
Lemma st_vbytes rt n : stable (vbytes rt n). Proof. apply st_bind; [apply st_bytes|intros; apply st_ret]. Qed.
Lemma st_str rt e n : stable (read_str rt e n).
Proof. unfold read_str. apply st_bind; [apply st_bytes|intros; apply st_lift]. Qed.
Lemma st_vstr rt e n : stable (vstr rt e n).
Proof. unfold vstr. apply st_bind; [|intros; apply st_ret]. unfold read_str. apply st_bind; [apply st_bytes|intros; apply st_lift]. Qed.
Lemma st_expect rt l p : stable (expect_bytes rt l p).
Proof. apply st_bind; [apply st_bytes|]. intros x. destruct (bytes_eqb x l); [apply st_ret|apply st_fail]. Qed.
Lemma st_aligned {A} (m : M A) : stable m -> stable (aligned m). Proof. intros H. apply st_bind; [apply st_align|intros; exact H]. Qed.
Lemma st_some {A} (m : M A) : stable m -> stable (some m). Proof. intros H. apply st_bind; [exact H|intros; apply st_ret]. Qed.
Lemma st_none {A} : stable (@none A). Proof. apply st_ret. Qed.
Lemma st_repeat n m : stable m -> stable (repeat_n n m).
Proof. intros H. induction n as [|n IH]; cbn [repeat_n]; [apply st_ret|]. apply st_bind; [exact H|intros v]. apply st_bind; [exact IH|intros l]. apply st_ret. Qed.
Lemma st_range n m : stable m -> stable (for_range n m). Proof. apply st_repeat. Qed.
Lemma st_enum_value v : stable (enum_value v). Proof. destruct v; (apply st_ret || apply st_fail). Qed.
Lemma st_needed {A} x (v : option A) : stable (needed x v). Proof. destruct v; (apply st_ret || apply st_fail). Qed.
Lemma st_stored n a : stable (stored n a). Proof. unfold stored. destruct (lookup n a); (apply st_ret || apply st_fail || apply st_lift). Qed.
#[global] Hint Resolve st_align st_bytes st_bits st_pos st_seek st_u1 st_u2be st_u4be st_u2le st_u4le st_s2be st_flag st_vint st_vbits st_vflag st_venum st_vbytes st_str st_vstr st_expect st_aligned st_some st_none st_range st_enum_value st_needed st_stored : stab.

Lemma st_p_DmrCsbk_NegativeAckResponseData  : stable (p_DmrCsbk_NegativeAckResponseData ).
Proof. unfold p_DmrCsbk_NegativeAckResponseData. stab. Qed.
#[global] Hint Resolve st_p_DmrCsbk_NegativeAckResponseData : stab.
Lemma st_p_DmrCsbk_ServiceOptions  : stable (p_DmrCsbk_ServiceOptions ).
Proof. unfold p_DmrCsbk_ServiceOptions. stab. Qed.
#[global] Hint Resolve st_p_DmrCsbk_ServiceOptions : stab.
Lemma st_p_DmrCsbk_UnitToUnitVoiceRequestData  : stable (p_DmrCsbk_UnitToUnitVoiceRequestData ).
Proof. unfold p_DmrCsbk_UnitToUnitVoiceRequestData. stab. Qed.
#[global] Hint Resolve st_p_DmrCsbk_UnitToUnitVoiceRequestData : stab.
Lemma st_p_DmrCsbk_PreambleData  : stable (p_DmrCsbk_PreambleData ).
Proof. unfold p_DmrCsbk_PreambleData. stab. Qed.
#[global] Hint Resolve st_p_DmrCsbk_PreambleData : stab.
Lemma st_p_DmrCsbk_ChannelTimingData  : stable (p_DmrCsbk_ChannelTimingData ).
Proof. unfold p_DmrCsbk_ChannelTimingData. stab. Qed.
#[global] Hint Resolve st_p_DmrCsbk_ChannelTimingData : stab.
Lemma st_p_DmrCsbk_BsOutboundActivationData  : stable (p_DmrCsbk_BsOutboundActivationData ).
Proof. unfold p_DmrCsbk_BsOutboundActivationData. stab. Qed.
#[global] Hint Resolve st_p_DmrCsbk_BsOutboundActivationData : stab.
Lemma st_p_DmrCsbk_UnitToUnitVoiceAnswerData  : stable (p_DmrCsbk_UnitToUnitVoiceAnswerData ).
Proof. unfold p_DmrCsbk_UnitToUnitVoiceAnswerData. stab. Qed.
#[global] Hint Resolve st_p_DmrCsbk_UnitToUnitVoiceAnswerData : stab.
Lemma st_p_DmrCsbk  : stable (p_DmrCsbk ).
Proof. unfold p_DmrCsbk. stab. Qed.
#[global] Hint Resolve st_p_DmrCsbk : stab.
Lemma st_p_DmrData_Rate1LastBlockUnconfirmed rt : stable (p_DmrData_Rate1LastBlockUnconfirmed rt).
Proof. unfold p_DmrData_Rate1LastBlockUnconfirmed. stab. Qed.
#[global] Hint Resolve st_p_DmrData_Rate1LastBlockUnconfirmed : stab.
Lemma st_p_DmrData_Rate12LastBlockConfirmed rt : stable (p_DmrData_Rate12LastBlockConfirmed rt).
Proof. unfold p_DmrData_Rate12LastBlockConfirmed. stab. Qed.
#[global] Hint Resolve st_p_DmrData_Rate12LastBlockConfirmed : stab.
Lemma st_p_DmrData_Rate12Confirmed rt : stable (p_DmrData_Rate12Confirmed rt).
Proof. unfold p_DmrData_Rate12Confirmed. stab. Qed.
#[global] Hint Resolve st_p_DmrData_Rate12Confirmed : stab.
Lemma st_p_DmrData_Rate34LastBlockUnconfirmed rt : stable (p_DmrData_Rate34LastBlockUnconfirmed rt).
Proof. unfold p_DmrData_Rate34LastBlockUnconfirmed. stab. Qed.
#[global] Hint Resolve st_p_DmrData_Rate34LastBlockUnconfirmed : stab.
Lemma st_p_DmrData_Rate1LastBlockConfirmed rt : stable (p_DmrData_Rate1LastBlockConfirmed rt).
Proof. unfold p_DmrData_Rate1LastBlockConfirmed. stab. Qed.
#[global] Hint Resolve st_p_DmrData_Rate1LastBlockConfirmed : stab.
Lemma st_p_DmrData_Rate1Unconfirmed rt : stable (p_DmrData_Rate1Unconfirmed rt).
Proof. unfold p_DmrData_Rate1Unconfirmed. stab. Qed.
#[global] Hint Resolve st_p_DmrData_Rate1Unconfirmed : stab.
Lemma st_p_DmrData_UdtLastBlock rt : stable (p_DmrData_UdtLastBlock rt).
Proof. unfold p_DmrData_UdtLastBlock. stab. Qed.
#[global] Hint Resolve st_p_DmrData_UdtLastBlock : stab.
Lemma st_p_DmrData_Rate34Confirmed rt : stable (p_DmrData_Rate34Confirmed rt).
Proof. unfold p_DmrData_Rate34Confirmed. stab. Qed.
#[global] Hint Resolve st_p_DmrData_Rate34Confirmed : stab.
Lemma st_p_DmrData_Rate34LastBlockConfirmed rt : stable (p_DmrData_Rate34LastBlockConfirmed rt).
Proof. unfold p_DmrData_Rate34LastBlockConfirmed. stab. Qed.
#[global] Hint Resolve st_p_DmrData_Rate34LastBlockConfirmed : stab.
Lemma st_p_DmrData_Rate34Unconfirmed rt : stable (p_DmrData_Rate34Unconfirmed rt).
Proof. unfold p_DmrData_Rate34Unconfirmed. stab. Qed.
#[global] Hint Resolve st_p_DmrData_Rate34Unconfirmed : stab.
Lemma st_p_DmrData_Rate12LastBlockUnconfirmed rt : stable (p_DmrData_Rate12LastBlockUnconfirmed rt).
Proof. unfold p_DmrData_Rate12LastBlockUnconfirmed. stab. Qed.
#[global] Hint Resolve st_p_DmrData_Rate12LastBlockUnconfirmed : stab.
Lemma st_p_DmrData_Rate1Confirmed rt : stable (p_DmrData_Rate1Confirmed rt).
Proof. unfold p_DmrData_Rate1Confirmed. stab. Qed.
#[global] Hint Resolve st_p_DmrData_Rate1Confirmed : stab.
Lemma st_p_DmrData_Rate12Unconfirmed rt : stable (p_DmrData_Rate12Unconfirmed rt).
Proof. unfold p_DmrData_Rate12Unconfirmed. stab. Qed.
#[global] Hint Resolve st_p_DmrData_Rate12Unconfirmed : stab.
Lemma st_p_DmrData  : stable (p_DmrData ).
Proof. unfold p_DmrData. stab. Qed.
#[global] Hint Resolve st_p_DmrData : stab.
Lemma st_p_DmrDataHeader_DataHeaderShortRaw rt : stable (p_DmrDataHeader_DataHeaderShortRaw rt).
Proof. unfold p_DmrDataHeader_DataHeaderShortRaw. stab. Qed.
#[global] Hint Resolve st_p_DmrDataHeader_DataHeaderShortRaw : stab.
Lemma st_p_DmrDataHeader_DataHeaderProprietary rt : stable (p_DmrDataHeader_DataHeaderProprietary rt).
Proof. unfold p_DmrDataHeader_DataHeaderProprietary. stab. Qed.
#[global] Hint Resolve st_p_DmrDataHeader_DataHeaderProprietary : stab.
Lemma st_p_DmrDataHeader_DataHeaderShortStatusPrecoded rt : stable (p_DmrDataHeader_DataHeaderShortStatusPrecoded rt).
Proof. unfold p_DmrDataHeader_DataHeaderShortStatusPrecoded. stab. Qed.
#[global] Hint Resolve st_p_DmrDataHeader_DataHeaderShortStatusPrecoded : stab.
Lemma st_p_DmrDataHeader_DataHeaderResponse rt : stable (p_DmrDataHeader_DataHeaderResponse rt).
Proof. unfold p_DmrDataHeader_DataHeaderResponse. stab. Qed.
#[global] Hint Resolve st_p_DmrDataHeader_DataHeaderResponse : stab.
Lemma st_p_DmrDataHeader_DataHeaderConfirmed rt : stable (p_DmrDataHeader_DataHeaderConfirmed rt).
Proof. unfold p_DmrDataHeader_DataHeaderConfirmed. stab. Qed.
#[global] Hint Resolve st_p_DmrDataHeader_DataHeaderConfirmed : stab.
Lemma st_p_DmrDataHeader_DataHeaderUnconfirmed rt : stable (p_DmrDataHeader_DataHeaderUnconfirmed rt).
Proof. unfold p_DmrDataHeader_DataHeaderUnconfirmed. stab. Qed.
#[global] Hint Resolve st_p_DmrDataHeader_DataHeaderUnconfirmed : stab.
Lemma st_p_DmrDataHeader_DataHeaderShortDefined rt : stable (p_DmrDataHeader_DataHeaderShortDefined rt).
Proof. unfold p_DmrDataHeader_DataHeaderShortDefined. stab. Qed.
#[global] Hint Resolve st_p_DmrDataHeader_DataHeaderShortDefined : stab.
Lemma st_p_DmrDataHeader_DataHeaderUdt rt : stable (p_DmrDataHeader_DataHeaderUdt rt).
Proof. unfold p_DmrDataHeader_DataHeaderUdt. stab. Qed.
#[global] Hint Resolve st_p_DmrDataHeader_DataHeaderUdt : stab.
Lemma st_p_DmrDataHeader  : stable (p_DmrDataHeader ).
Proof. unfold p_DmrDataHeader. stab. Qed.
#[global] Hint Resolve st_p_DmrDataHeader : stab.
Lemma st_p_DmrIpUdp  : stable (p_DmrIpUdp ).
Proof. unfold p_DmrIpUdp. stab. Qed.
#[global] Hint Resolve st_p_DmrIpUdp : stab.
Lemma st_p_FullLinkControl_GpsInfoLcPdu  : stable (p_FullLinkControl_GpsInfoLcPdu ).
Proof. unfold p_FullLinkControl_GpsInfoLcPdu. stab. Qed.
#[global] Hint Resolve st_p_FullLinkControl_GpsInfoLcPdu : stab.
Lemma st_p_FullLinkControl_GroupVoiceChannelUser  : stable (p_FullLinkControl_GroupVoiceChannelUser ).
Proof. unfold p_FullLinkControl_GroupVoiceChannelUser. stab. Qed.
#[global] Hint Resolve st_p_FullLinkControl_GroupVoiceChannelUser : stab.
Lemma st_p_FullLinkControl_UnitToUnitVoiceChannelUser  : stable (p_FullLinkControl_UnitToUnitVoiceChannelUser ).
Proof. unfold p_FullLinkControl_UnitToUnitVoiceChannelUser. stab. Qed.
#[global] Hint Resolve st_p_FullLinkControl_UnitToUnitVoiceChannelUser : stab.
Lemma st_p_FullLinkControl_TalkerAliasHeader  : stable (p_FullLinkControl_TalkerAliasHeader ).
Proof. unfold p_FullLinkControl_TalkerAliasHeader. stab. Qed.
#[global] Hint Resolve st_p_FullLinkControl_TalkerAliasHeader : stab.
Lemma st_p_FullLinkControl_TalkerAliasContinuation  : stable (p_FullLinkControl_TalkerAliasContinuation ).
Proof. unfold p_FullLinkControl_TalkerAliasContinuation. stab. Qed.
#[global] Hint Resolve st_p_FullLinkControl_TalkerAliasContinuation : stab.
Lemma st_p_Homebrew2015_TypeMasterPing rt : stable (p_Homebrew2015_TypeMasterPing rt).
Proof. unfold p_Homebrew2015_TypeMasterPing. stab. Qed.
#[global] Hint Resolve st_p_Homebrew2015_TypeMasterPing : stab.
Lemma st_p_Homebrew2015_TypeRepeaterPong rt : stable (p_Homebrew2015_TypeRepeaterPong rt).
Proof. unfold p_Homebrew2015_TypeRepeaterPong. stab. Qed.
#[global] Hint Resolve st_p_Homebrew2015_TypeRepeaterPong : stab.
Lemma st_p_Homebrew2015_TypeRepeaterLoginResponse rt : stable (p_Homebrew2015_TypeRepeaterLoginResponse rt).
Proof. unfold p_Homebrew2015_TypeRepeaterLoginResponse. stab. Qed.
#[global] Hint Resolve st_p_Homebrew2015_TypeRepeaterLoginResponse : stab.
Lemma st_p_Homebrew2015_TypeRepeaterLoginRequest rt : stable (p_Homebrew2015_TypeRepeaterLoginRequest rt).
Proof. unfold p_Homebrew2015_TypeRepeaterLoginRequest. stab. Qed.
#[global] Hint Resolve st_p_Homebrew2015_TypeRepeaterLoginRequest : stab.
Lemma st_p_Homebrew2015_TypeMasterNotAccept rt : stable (p_Homebrew2015_TypeMasterNotAccept rt).
Proof. unfold p_Homebrew2015_TypeMasterNotAccept. stab. Qed.
#[global] Hint Resolve st_p_Homebrew2015_TypeMasterNotAccept : stab.
Lemma st_p_Homebrew2015_TypeMasterClosing rt : stable (p_Homebrew2015_TypeMasterClosing rt).
Proof. unfold p_Homebrew2015_TypeMasterClosing. stab. Qed.
#[global] Hint Resolve st_p_Homebrew2015_TypeMasterClosing : stab.
Lemma st_p_Homebrew2015_TypeRepeaterClosing rt : stable (p_Homebrew2015_TypeRepeaterClosing rt).
Proof. unfold p_Homebrew2015_TypeRepeaterClosing. stab. Qed.
#[global] Hint Resolve st_p_Homebrew2015_TypeRepeaterClosing : stab.
Lemma st_p_Mmdvm2020_TypeMasterPong rt : stable (p_Mmdvm2020_TypeMasterPong rt).
Proof. unfold p_Mmdvm2020_TypeMasterPong. stab. Qed.
#[global] Hint Resolve st_p_Mmdvm2020_TypeMasterPong : stab.
Lemma st_p_Mmdvm2020_TypeRadioPosition  : stable (p_Mmdvm2020_TypeRadioPosition ).
Proof. unfold p_Mmdvm2020_TypeRadioPosition. stab. Qed.
#[global] Hint Resolve st_p_Mmdvm2020_TypeRadioPosition : stab.
Lemma st_p_Mmdvm2020_TypeTalkerAlias rt : stable (p_Mmdvm2020_TypeTalkerAlias rt).
Proof. unfold p_Mmdvm2020_TypeTalkerAlias. stab. Qed.
#[global] Hint Resolve st_p_Mmdvm2020_TypeTalkerAlias : stab.
Lemma st_p_Mmdvm2020_TypeRepeaterLoginResponse rt : stable (p_Mmdvm2020_TypeRepeaterLoginResponse rt).
Proof. unfold p_Mmdvm2020_TypeRepeaterLoginResponse. stab. Qed.
#[global] Hint Resolve st_p_Mmdvm2020_TypeRepeaterLoginResponse : stab.
Lemma st_p_Mmdvm2020_TypeRepeaterLoginRequest rt : stable (p_Mmdvm2020_TypeRepeaterLoginRequest rt).
Proof. unfold p_Mmdvm2020_TypeRepeaterLoginRequest. stab. Qed.
#[global] Hint Resolve st_p_Mmdvm2020_TypeRepeaterLoginRequest : stab.
Lemma st_p_Mmdvm2020_TypeMasterNotAccept rt : stable (p_Mmdvm2020_TypeMasterNotAccept rt).
Proof. unfold p_Mmdvm2020_TypeMasterNotAccept. stab. Qed.
#[global] Hint Resolve st_p_Mmdvm2020_TypeMasterNotAccept : stab.
Lemma st_p_Mmdvm2020_TypeMasterRepeaterAck rt : stable (p_Mmdvm2020_TypeMasterRepeaterAck rt).
Proof. unfold p_Mmdvm2020_TypeMasterRepeaterAck. stab. Qed.
#[global] Hint Resolve st_p_Mmdvm2020_TypeMasterRepeaterAck : stab.
Lemma st_p_Mmdvm2020_TypeMasterClosing rt : stable (p_Mmdvm2020_TypeMasterClosing rt).
Proof. unfold p_Mmdvm2020_TypeMasterClosing. stab. Qed.
#[global] Hint Resolve st_p_Mmdvm2020_TypeMasterClosing : stab.
Lemma st_p_Mmdvm2020_TypeRepeaterBeacon  : stable (p_Mmdvm2020_TypeRepeaterBeacon ).
Proof. unfold p_Mmdvm2020_TypeRepeaterBeacon. stab. Qed.
#[global] Hint Resolve st_p_Mmdvm2020_TypeRepeaterBeacon : stab.
Lemma st_p_Mmdvm2020_TypeRepeaterClosing rt : stable (p_Mmdvm2020_TypeRepeaterClosing rt).
Proof. unfold p_Mmdvm2020_TypeRepeaterClosing. stab. Qed.
#[global] Hint Resolve st_p_Mmdvm2020_TypeRepeaterClosing : stab.
Lemma st_p_Mmdvm2020_TypeRepeaterPing rt : stable (p_Mmdvm2020_TypeRepeaterPing rt).
Proof. unfold p_Mmdvm2020_TypeRepeaterPing. stab. Qed.
#[global] Hint Resolve st_p_Mmdvm2020_TypeRepeaterPing : stab.
Lemma st_p_RadioIp rt : stable (p_RadioIp rt).
Proof. unfold p_RadioIp. stab. Qed.
#[global] Hint Resolve st_p_RadioIp : stab.
Lemma st_p_RadioId rt : stable (p_RadioId rt).
Proof. unfold p_RadioId. stab. Qed.
#[global] Hint Resolve st_p_RadioId : stab.
Lemma st_p_Datetimestring rt : stable (p_Datetimestring rt).
Proof. unfold p_Datetimestring. stab. Qed.
#[global] Hint Resolve st_p_Datetimestring : stab.
Lemma st_p_Intervalstring rt : stable (p_Intervalstring rt).
Proof. unfold p_Intervalstring. stab. Qed.
#[global] Hint Resolve st_p_Intervalstring : stab.
Lemma st_p_Gpsdata rt : stable (p_Gpsdata rt).
Proof. unfold p_Gpsdata. stab. Qed.
#[global] Hint Resolve st_p_Gpsdata : stab.
Lemma st_p_RadioRegistrationService rt : stable (p_RadioRegistrationService rt).
Proof. unfold p_RadioRegistrationService. stab. Qed.
#[global] Hint Resolve st_p_RadioRegistrationService : stab.
Lemma st_p_DataDeliveryStates rt : stable (p_DataDeliveryStates rt).
Proof. unfold p_DataDeliveryStates. stab. Qed.
#[global] Hint Resolve st_p_DataDeliveryStates : stab.
Lemma st_p_DataTransmitProtocol_LastDataSlice rt : stable (p_DataTransmitProtocol_LastDataSlice rt).
Proof. unfold p_DataTransmitProtocol_LastDataSlice. stab. Qed.
#[global] Hint Resolve st_p_DataTransmitProtocol_LastDataSlice : stab.
Lemma st_p_DataTransmitProtocol_DtpRequest rt x1 : stable (p_DataTransmitProtocol_DtpRequest rt x1).
Proof. unfold p_DataTransmitProtocol_DtpRequest. stab. Qed.
#[global] Hint Resolve st_p_DataTransmitProtocol_DtpRequest : stab.
Lemma st_p_DataTransmitProtocol_DataSliceAnswer rt : stable (p_DataTransmitProtocol_DataSliceAnswer rt).
Proof. unfold p_DataTransmitProtocol_DataSliceAnswer. stab. Qed.
#[global] Hint Resolve st_p_DataTransmitProtocol_DataSliceAnswer : stab.
Lemma st_p_DataTransmitProtocol_DataSliceTransmit rt x1 : stable (p_DataTransmitProtocol_DataSliceTransmit rt x1).
Proof. unfold p_DataTransmitProtocol_DataSliceTransmit. stab. Qed.
#[global] Hint Resolve st_p_DataTransmitProtocol_DataSliceTransmit : stab.
Lemma st_p_DataTransmitProtocol_LastDataSliceAnswer rt : stable (p_DataTransmitProtocol_LastDataSliceAnswer rt).
Proof. unfold p_DataTransmitProtocol_LastDataSliceAnswer. stab. Qed.
#[global] Hint Resolve st_p_DataTransmitProtocol_LastDataSliceAnswer : stab.
Lemma st_p_DataTransmitProtocol_DtpAnswer rt : stable (p_DataTransmitProtocol_DtpAnswer rt).
Proof. unfold p_DataTransmitProtocol_DtpAnswer. stab. Qed.
#[global] Hint Resolve st_p_DataTransmitProtocol_DtpAnswer : stab.
Lemma st_p_DataTransmitProtocol rt : stable (p_DataTransmitProtocol rt).
Proof. unfold p_DataTransmitProtocol. stab. Qed.
#[global] Hint Resolve st_p_DataTransmitProtocol : stab.
Lemma st_p_TextMessageProtocol rt : stable (p_TextMessageProtocol rt).
Proof. unfold p_TextMessageProtocol, TextMessageProtocol_option_sum_len. stab. Qed.
#[global] Hint Resolve st_p_TextMessageProtocol : stab.
Lemma st_p_LocationProtocol_TriggeredReportStopAnswer rt : stable (p_LocationProtocol_TriggeredReportStopAnswer rt).
Proof. unfold p_LocationProtocol_TriggeredReportStopAnswer. stab. Qed.
#[global] Hint Resolve st_p_LocationProtocol_TriggeredReportStopAnswer : stab.
Lemma st_p_LocationProtocol_ConditionReportRequest rt : stable (p_LocationProtocol_ConditionReportRequest rt).
Proof. unfold p_LocationProtocol_ConditionReportRequest. stab. Qed.
#[global] Hint Resolve st_p_LocationProtocol_ConditionReportRequest : stab.
Lemma st_p_LocationProtocol_QuickGpsPayload rt : stable (p_LocationProtocol_QuickGpsPayload rt).
Proof. unfold p_LocationProtocol_QuickGpsPayload. stab. Qed.
#[global] Hint Resolve st_p_LocationProtocol_QuickGpsPayload : stab.
Lemma st_p_LocationProtocol_ConditionQuickGpsRequest rt : stable (p_LocationProtocol_ConditionQuickGpsRequest rt).
Proof. unfold p_LocationProtocol_ConditionQuickGpsRequest. stab. Qed.
#[global] Hint Resolve st_p_LocationProtocol_ConditionQuickGpsRequest : stab.
Lemma st_p_LocationProtocol_ConditionReport rt : stable (p_LocationProtocol_ConditionReport rt).
Proof. unfold p_LocationProtocol_ConditionReport. stab. Qed.
#[global] Hint Resolve st_p_LocationProtocol_ConditionReport : stab.
Lemma st_p_LocationProtocol_EmergencyReport rt : stable (p_LocationProtocol_EmergencyReport rt).
Proof. unfold p_LocationProtocol_EmergencyReport. stab. Qed.
#[global] Hint Resolve st_p_LocationProtocol_EmergencyReport : stab.
Lemma st_p_LocationProtocol_TriggeredReportAnswer rt : stable (p_LocationProtocol_TriggeredReportAnswer rt).
Proof. unfold p_LocationProtocol_TriggeredReportAnswer. stab. Qed.
#[global] Hint Resolve st_p_LocationProtocol_TriggeredReportAnswer : stab.
Lemma st_p_LocationProtocol_StandardAnswerWithRssi rt : stable (p_LocationProtocol_StandardAnswerWithRssi rt).
Proof. unfold p_LocationProtocol_StandardAnswerWithRssi. stab. Qed.
#[global] Hint Resolve st_p_LocationProtocol_StandardAnswerWithRssi : stab.
Lemma st_p_LocationProtocol_StandardRequest rt : stable (p_LocationProtocol_StandardRequest rt).
Proof. unfold p_LocationProtocol_StandardRequest. stab. Qed.
#[global] Hint Resolve st_p_LocationProtocol_StandardRequest : stab.
Lemma st_p_LocationProtocol_TriggeredReportRequest rt : stable (p_LocationProtocol_TriggeredReportRequest rt).
Proof. unfold p_LocationProtocol_TriggeredReportRequest. stab. Qed.
#[global] Hint Resolve st_p_LocationProtocol_TriggeredReportRequest : stab.
Lemma st_p_LocationProtocol_StandardAnswer rt : stable (p_LocationProtocol_StandardAnswer rt).
Proof. unfold p_LocationProtocol_StandardAnswer. stab. Qed.
#[global] Hint Resolve st_p_LocationProtocol_StandardAnswer : stab.
Lemma st_p_LocationProtocol_ConditionReportAnswer rt : stable (p_LocationProtocol_ConditionReportAnswer rt).
Proof. unfold p_LocationProtocol_ConditionReportAnswer. stab. Qed.
#[global] Hint Resolve st_p_LocationProtocol_ConditionReportAnswer : stab.
Lemma st_p_LocationProtocol_EmergencyReportStopRequest rt : stable (p_LocationProtocol_EmergencyReportStopRequest rt).
Proof. unfold p_LocationProtocol_EmergencyReportStopRequest. stab. Qed.
#[global] Hint Resolve st_p_LocationProtocol_EmergencyReportStopRequest : stab.
Lemma st_p_LocationProtocol_ConditionQuickGpsAnswer rt : stable (p_LocationProtocol_ConditionQuickGpsAnswer rt).
Proof. unfold p_LocationProtocol_ConditionQuickGpsAnswer. stab. Qed.
#[global] Hint Resolve st_p_LocationProtocol_ConditionQuickGpsAnswer : stab.
Lemma st_p_LocationProtocol_TriggeredReport rt : stable (p_LocationProtocol_TriggeredReport rt).
Proof. unfold p_LocationProtocol_TriggeredReport. stab. Qed.
#[global] Hint Resolve st_p_LocationProtocol_TriggeredReport : stab.
Lemma st_p_LocationProtocol_ConditionReportWithRssi rt : stable (p_LocationProtocol_ConditionReportWithRssi rt).
Proof. unfold p_LocationProtocol_ConditionReportWithRssi. stab. Qed.
#[global] Hint Resolve st_p_LocationProtocol_ConditionReportWithRssi : stab.
Lemma st_p_LocationProtocol_EmergencyReportStopAnswer rt : stable (p_LocationProtocol_EmergencyReportStopAnswer rt).
Proof. unfold p_LocationProtocol_EmergencyReportStopAnswer. stab. Qed.
#[global] Hint Resolve st_p_LocationProtocol_EmergencyReportStopAnswer : stab.
Lemma st_p_LocationProtocol_TriggeredReportStopRequest rt : stable (p_LocationProtocol_TriggeredReportStopRequest rt).
Proof. unfold p_LocationProtocol_TriggeredReportStopRequest. stab. Qed.
#[global] Hint Resolve st_p_LocationProtocol_TriggeredReportStopRequest : stab.
Lemma st_p_LocationProtocol rt : stable (p_LocationProtocol rt).
Proof. unfold p_LocationProtocol. stab. Qed.
#[global] Hint Resolve st_p_LocationProtocol : stab.
Lemma st_p_TelemetryProtocol_StandardStatusReport rt : stable (p_TelemetryProtocol_StandardStatusReport rt).
Proof. unfold p_TelemetryProtocol_StandardStatusReport. stab. Qed.
#[global] Hint Resolve st_p_TelemetryProtocol_StandardStatusReport : stab.
Lemma st_p_TelemetryProtocol_VioExtendedStatus rt : stable (p_TelemetryProtocol_VioExtendedStatus rt).
Proof. unfold p_TelemetryProtocol_VioExtendedStatus. stab. Qed.
#[global] Hint Resolve st_p_TelemetryProtocol_VioExtendedStatus : stab.
Lemma st_p_TelemetryProtocol_RemoteControlAnswer rt : stable (p_TelemetryProtocol_RemoteControlAnswer rt).
Proof. unfold p_TelemetryProtocol_RemoteControlAnswer. stab. Qed.
#[global] Hint Resolve st_p_TelemetryProtocol_RemoteControlAnswer : stab.
Lemma st_p_TelemetryProtocol_RemoteControlRequest rt : stable (p_TelemetryProtocol_RemoteControlRequest rt).
Proof. unfold p_TelemetryProtocol_RemoteControlRequest. stab. Qed.
#[global] Hint Resolve st_p_TelemetryProtocol_RemoteControlRequest : stab.
Lemma st_p_TelemetryProtocol_ExtendedStatusReport rt : stable (p_TelemetryProtocol_ExtendedStatusReport rt).
Proof. unfold p_TelemetryProtocol_ExtendedStatusReport. stab. Qed.
#[global] Hint Resolve st_p_TelemetryProtocol_ExtendedStatusReport : stab.
Lemma st_p_TelemetryProtocol_StandardStatusRequest rt : stable (p_TelemetryProtocol_StandardStatusRequest rt).
Proof. unfold p_TelemetryProtocol_StandardStatusRequest. stab. Qed.
#[global] Hint Resolve st_p_TelemetryProtocol_StandardStatusRequest : stab.
Lemma st_TelemetryProtocol_specific_service rt : stable (TelemetryProtocol_specific_service rt).
Proof. unfold TelemetryProtocol_specific_service. stab. Qed.
#[global] Hint Resolve st_TelemetryProtocol_specific_service : stab.
Lemma st_p_TelemetryProtocol rt : stable (p_TelemetryProtocol rt).
Proof. unfold p_TelemetryProtocol. stab. Qed.
#[global] Hint Resolve st_p_TelemetryProtocol : stab.
Lemma st_p_RadioControlProtocol_BroadcastStatusConfigurationReply rt : stable (p_RadioControlProtocol_BroadcastStatusConfigurationReply rt).
Proof. unfold p_RadioControlProtocol_BroadcastStatusConfigurationReply. stab. Qed.
#[global] Hint Resolve st_p_RadioControlProtocol_BroadcastStatusConfigurationReply : stab.
Lemma st_p_RadioControlProtocol_BroadcastConfiguration rt : stable (p_RadioControlProtocol_BroadcastConfiguration rt).
Proof. unfold p_RadioControlProtocol_BroadcastConfiguration. stab. Qed.
#[global] Hint Resolve st_p_RadioControlProtocol_BroadcastConfiguration : stab.
Lemma st_p_RadioControlProtocol_BroadcastStatusConfigurationRequest rt : stable (p_RadioControlProtocol_BroadcastStatusConfigurationRequest rt).
Proof. unfold p_RadioControlProtocol_BroadcastStatusConfigurationRequest. stab. Qed.
#[global] Hint Resolve st_p_RadioControlProtocol_BroadcastStatusConfigurationRequest : stab.
Lemma st_p_RadioControlProtocol_RadioIdentificationReply rt x1 : stable (p_RadioControlProtocol_RadioIdentificationReply rt x1).
Proof. unfold p_RadioControlProtocol_RadioIdentificationReply. stab. Qed.
#[global] Hint Resolve st_p_RadioControlProtocol_RadioIdentificationReply : stab.
Lemma st_p_RadioControlProtocol_GenericData rt x1 : stable (p_RadioControlProtocol_GenericData rt x1).
Proof. unfold p_RadioControlProtocol_GenericData. stab. Qed.
#[global] Hint Resolve st_p_RadioControlProtocol_GenericData : stab.
Lemma st_p_RadioControlProtocol_CallRequest rt : stable (p_RadioControlProtocol_CallRequest rt).
Proof. unfold p_RadioControlProtocol_CallRequest. stab. Qed.
#[global] Hint Resolve st_p_RadioControlProtocol_CallRequest : stab.
Lemma st_p_RadioControlProtocol_RemoveRadioReply rt : stable (p_RadioControlProtocol_RemoveRadioReply rt).
Proof. unfold p_RadioControlProtocol_RemoveRadioReply. stab. Qed.
#[global] Hint Resolve st_p_RadioControlProtocol_RemoveRadioReply : stab.
Lemma st_p_RadioControlProtocol_RemoveRadioRequest  : stable (p_RadioControlProtocol_RemoveRadioRequest ).
Proof. unfold p_RadioControlProtocol_RemoveRadioRequest. stab. Qed.
#[global] Hint Resolve st_p_RadioControlProtocol_RemoveRadioRequest : stab.
Lemma st_p_RadioControlProtocol_CallReply rt : stable (p_RadioControlProtocol_CallReply rt).
Proof. unfold p_RadioControlProtocol_CallReply. stab. Qed.
#[global] Hint Resolve st_p_RadioControlProtocol_CallReply : stab.
Lemma st_p_RadioControlProtocol rt : stable (p_RadioControlProtocol rt).
Proof. unfold p_RadioControlProtocol. stab. Qed.
#[global] Hint Resolve st_p_RadioControlProtocol : stab.
Lemma st_p_HyteraDmrApplicationProtocol rt : stable (p_HyteraDmrApplicationProtocol rt).
Proof. unfold p_HyteraDmrApplicationProtocol. stab. Qed.
#[global] Hint Resolve st_p_HyteraDmrApplicationProtocol : stab.
Lemma st_p_HyteraRadioNetworkProtocol rt : stable (p_HyteraRadioNetworkProtocol rt).
Proof. unfold p_HyteraRadioNetworkProtocol. stab. Qed.
#[global] Hint Resolve st_p_HyteraRadioNetworkProtocol : stab.
Lemma st_p_HyteraSimpleTransportReliabilityProtocol_Option rt : stable (p_HyteraSimpleTransportReliabilityProtocol_Option rt).
Proof. unfold p_HyteraSimpleTransportReliabilityProtocol_Option. stab. Qed.
#[global] Hint Resolve st_p_HyteraSimpleTransportReliabilityProtocol_Option : stab.
Lemma st_p_IpSiteConnectHeartbeat_Keepalive rt : stable (p_IpSiteConnectHeartbeat_Keepalive rt).
Proof. unfold p_IpSiteConnectHeartbeat_Keepalive. stab. Qed.
#[global] Hint Resolve st_p_IpSiteConnectHeartbeat_Keepalive : stab.
Lemma st_p_IpSiteConnectHeartbeat_PingPong rt : stable (p_IpSiteConnectHeartbeat_PingPong rt).
Proof. unfold p_IpSiteConnectHeartbeat_PingPong. stab. Qed.
#[global] Hint Resolve st_p_IpSiteConnectHeartbeat_PingPong : stab.
Lemma st_p_RealTimeTransportProtocol_FixedHeader rt : stable (p_RealTimeTransportProtocol_FixedHeader rt).
Proof. unfold p_RealTimeTransportProtocol_FixedHeader. stab. Qed.
#[global] Hint Resolve st_p_RealTimeTransportProtocol_FixedHeader : stab.
Lemma st_p_RealTimeTransportProtocol_HeaderExtension rt : stable (p_RealTimeTransportProtocol_HeaderExtension rt).
Proof. unfold p_RealTimeTransportProtocol_HeaderExtension. stab. Qed.
#[global] Hint Resolve st_p_RealTimeTransportProtocol_HeaderExtension : stab.
Lemma st_p_AutomaticRegistrationService_DeviceRegistrationMessageHeader  : stable (p_AutomaticRegistrationService_DeviceRegistrationMessageHeader ).
Proof. unfold p_AutomaticRegistrationService_DeviceRegistrationMessageHeader. stab. Qed.
#[global] Hint Resolve st_p_AutomaticRegistrationService_DeviceRegistrationMessageHeader : stab.
Lemma st_p_AutomaticRegistrationService_MessageHeaderBits  : stable (p_AutomaticRegistrationService_MessageHeaderBits ).
Proof. unfold p_AutomaticRegistrationService_MessageHeaderBits. stab. Qed.
#[global] Hint Resolve st_p_AutomaticRegistrationService_MessageHeaderBits : stab.
Lemma st_p_AutomaticRegistrationService_DeviceDeregistrationMessage  : stable (p_AutomaticRegistrationService_DeviceDeregistrationMessage ).
Proof. unfold p_AutomaticRegistrationService_DeviceDeregistrationMessage. stab. Qed.
#[global] Hint Resolve st_p_AutomaticRegistrationService_DeviceDeregistrationMessage : stab.
Lemma st_p_AutomaticRegistrationService_DeviceRegistrationAcknowledgementFailureReason  : stable (p_AutomaticRegistrationService_DeviceRegistrationAcknowledgementFailureReason ).
Proof. unfold p_AutomaticRegistrationService_DeviceRegistrationAcknowledgementFailureReason. stab. Qed.
#[global] Hint Resolve st_p_AutomaticRegistrationService_DeviceRegistrationAcknowledgementFailureReason : stab.
Lemma st_p_AutomaticRegistrationService_DeviceRegistrationAcknowledgementHeader  : stable (p_AutomaticRegistrationService_DeviceRegistrationAcknowledgementHeader ).
Proof. unfold p_AutomaticRegistrationService_DeviceRegistrationAcknowledgementHeader. stab. Qed.
#[global] Hint Resolve st_p_AutomaticRegistrationService_DeviceRegistrationAcknowledgementHeader : stab.
Lemma st_p_AutomaticRegistrationService_ArsQueryMessage  : stable (p_AutomaticRegistrationService_ArsQueryMessage ).
Proof. unfold p_AutomaticRegistrationService_ArsQueryMessage. stab. Qed.
#[global] Hint Resolve st_p_AutomaticRegistrationService_ArsQueryMessage : stab.
Lemma st_p_MotTextMessageProtocol_TextMessageHeaderSequenceAndEncoding  : stable (p_MotTextMessageProtocol_TextMessageHeaderSequenceAndEncoding ).
Proof. unfold p_MotTextMessageProtocol_TextMessageHeaderSequenceAndEncoding. stab. Qed.
#[global] Hint Resolve st_p_MotTextMessageProtocol_TextMessageHeaderSequenceAndEncoding : stab.
Lemma st_p_MotTextMessageProtocol_TmsServiceAvailabilityHeader  : stable (p_MotTextMessageProtocol_TmsServiceAvailabilityHeader ).
Proof. unfold p_MotTextMessageProtocol_TmsServiceAvailabilityHeader. stab. Qed.
#[global] Hint Resolve st_p_MotTextMessageProtocol_TmsServiceAvailabilityHeader : stab.
Lemma st_p_MotTextMessageProtocol_MessageHeaderBits  : stable (p_MotTextMessageProtocol_MessageHeaderBits ).
Proof. unfold p_MotTextMessageProtocol_MessageHeaderBits. stab. Qed.
#[global] Hint Resolve st_p_MotTextMessageProtocol_MessageHeaderBits : stab.
Lemma st_p_MotTextMessageProtocol_TmsAcknowledgementHeaderSequenceNumber  : stable (p_MotTextMessageProtocol_TmsAcknowledgementHeaderSequenceNumber ).
Proof. unfold p_MotTextMessageProtocol_TmsAcknowledgementHeaderSequenceNumber. stab. Qed.
#[global] Hint Resolve st_p_MotTextMessageProtocol_TmsAcknowledgementHeaderSequenceNumber : stab.
Lemma st_p_MotTextMessageProtocol_TmsServiceAvailabilityAcknowledgement  : stable (p_MotTextMessageProtocol_TmsServiceAvailabilityAcknowledgement ).
Proof. unfold p_MotTextMessageProtocol_TmsServiceAvailabilityAcknowledgement. stab. Qed.
#[global] Hint Resolve st_p_MotTextMessageProtocol_TmsServiceAvailabilityAcknowledgement : stab.
Lemma st_p_MotorolaBinaryXml_OpaqueElementValue rt : stable (p_MotorolaBinaryXml_OpaqueElementValue rt).
Proof. unfold p_MotorolaBinaryXml_OpaqueElementValue. stab. Qed.
#[global] Hint Resolve st_p_MotorolaBinaryXml_OpaqueElementValue : stab.
Lemma st_p_MotorolaBinaryXml_Opaque1byteValue rt : stable (p_MotorolaBinaryXml_Opaque1byteValue rt).
Proof. unfold p_MotorolaBinaryXml_Opaque1byteValue. stab. Qed.
#[global] Hint Resolve st_p_MotorolaBinaryXml_Opaque1byteValue : stab.
Lemma st_p_MotorolaBinaryXml_Opaque2byteValue rt : stable (p_MotorolaBinaryXml_Opaque2byteValue rt).
Proof. unfold p_MotorolaBinaryXml_Opaque2byteValue. stab. Qed.
#[global] Hint Resolve st_p_MotorolaBinaryXml_Opaque2byteValue : stab.
Lemma st_p_MotorolaBinaryXml_Opaque3byteValue rt : stable (p_MotorolaBinaryXml_Opaque3byteValue rt).
Proof. unfold p_MotorolaBinaryXml_Opaque3byteValue. stab. Qed.
#[global] Hint Resolve st_p_MotorolaBinaryXml_Opaque3byteValue : stab.
Lemma st_p_MotorolaBinaryXml_Opaque4byteValue rt : stable (p_MotorolaBinaryXml_Opaque4byteValue rt).
Proof. unfold p_MotorolaBinaryXml_Opaque4byteValue. stab. Qed.
#[global] Hint Resolve st_p_MotorolaBinaryXml_Opaque4byteValue : stab.
Lemma st_p_MotorolaBinaryXml_Opaque5byteValue rt : stable (p_MotorolaBinaryXml_Opaque5byteValue rt).
Proof. unfold p_MotorolaBinaryXml_Opaque5byteValue. stab. Qed.
#[global] Hint Resolve st_p_MotorolaBinaryXml_Opaque5byteValue : stab.

(** The self-delimiting protocol classes. *)
Definition self_delimiting : list (string * (runtime -> M pyval)) := [
  ("DmrCsbk_NegativeAckResponseData", (fun _ => p_DmrCsbk_NegativeAckResponseData));
  ("DmrCsbk_ServiceOptions", (fun _ => p_DmrCsbk_ServiceOptions));
  ("DmrCsbk_UnitToUnitVoiceRequestData", (fun _ => p_DmrCsbk_UnitToUnitVoiceRequestData));
  ("DmrCsbk_PreambleData", (fun _ => p_DmrCsbk_PreambleData));
  ("DmrCsbk_ChannelTimingData", (fun _ => p_DmrCsbk_ChannelTimingData));
  ("DmrCsbk_BsOutboundActivationData", (fun _ => p_DmrCsbk_BsOutboundActivationData));
  ("DmrCsbk_UnitToUnitVoiceAnswerData", (fun _ => p_DmrCsbk_UnitToUnitVoiceAnswerData));
  ("DmrCsbk", (fun _ => p_DmrCsbk));
  ("DmrData_Rate1LastBlockUnconfirmed", p_DmrData_Rate1LastBlockUnconfirmed);
  ("DmrData_Rate12LastBlockConfirmed", p_DmrData_Rate12LastBlockConfirmed);
  ("DmrData_Rate12Confirmed", p_DmrData_Rate12Confirmed);
  ("DmrData_Rate34LastBlockUnconfirmed", p_DmrData_Rate34LastBlockUnconfirmed);
  ("DmrData_Rate1LastBlockConfirmed", p_DmrData_Rate1LastBlockConfirmed);
  ("DmrData_Rate1Unconfirmed", p_DmrData_Rate1Unconfirmed);
  ("DmrData_UdtLastBlock", p_DmrData_UdtLastBlock);
  ("DmrData_Rate34Confirmed", p_DmrData_Rate34Confirmed);
  ("DmrData_Rate34LastBlockConfirmed", p_DmrData_Rate34LastBlockConfirmed);
  ("DmrData_Rate34Unconfirmed", p_DmrData_Rate34Unconfirmed);
  ("DmrData_Rate12LastBlockUnconfirmed", p_DmrData_Rate12LastBlockUnconfirmed);
  ("DmrData_Rate1Confirmed", p_DmrData_Rate1Confirmed);
  ("DmrData_Rate12Unconfirmed", p_DmrData_Rate12Unconfirmed);
  ("DmrData", (fun _ => p_DmrData));
  ("DmrDataHeader_DataHeaderShortRaw", p_DmrDataHeader_DataHeaderShortRaw);
  ("DmrDataHeader_DataHeaderProprietary", p_DmrDataHeader_DataHeaderProprietary);
  ("DmrDataHeader_DataHeaderShortStatusPrecoded", p_DmrDataHeader_DataHeaderShortStatusPrecoded);
  ("DmrDataHeader_DataHeaderResponse", p_DmrDataHeader_DataHeaderResponse);
  ("DmrDataHeader_DataHeaderConfirmed", p_DmrDataHeader_DataHeaderConfirmed);
  ("DmrDataHeader_DataHeaderUnconfirmed", p_DmrDataHeader_DataHeaderUnconfirmed);
  ("DmrDataHeader_DataHeaderShortDefined", p_DmrDataHeader_DataHeaderShortDefined);
  ("DmrDataHeader_DataHeaderUdt", p_DmrDataHeader_DataHeaderUdt);
  ("DmrDataHeader", (fun _ => p_DmrDataHeader));
  ("DmrIpUdp", (fun _ => p_DmrIpUdp));
  ("FullLinkControl_GpsInfoLcPdu", (fun _ => p_FullLinkControl_GpsInfoLcPdu));
  ("FullLinkControl_GroupVoiceChannelUser", (fun _ => p_FullLinkControl_GroupVoiceChannelUser));
  ("FullLinkControl_UnitToUnitVoiceChannelUser", (fun _ => p_FullLinkControl_UnitToUnitVoiceChannelUser));
  ("FullLinkControl_TalkerAliasHeader", (fun _ => p_FullLinkControl_TalkerAliasHeader));
  ("FullLinkControl_TalkerAliasContinuation", (fun _ => p_FullLinkControl_TalkerAliasContinuation));
  ("Homebrew2015_TypeMasterPing", p_Homebrew2015_TypeMasterPing);
  ("Homebrew2015_TypeRepeaterPong", p_Homebrew2015_TypeRepeaterPong);
  ("Homebrew2015_TypeRepeaterLoginResponse", p_Homebrew2015_TypeRepeaterLoginResponse);
  ("Homebrew2015_TypeRepeaterLoginRequest", p_Homebrew2015_TypeRepeaterLoginRequest);
  ("Homebrew2015_TypeMasterNotAccept", p_Homebrew2015_TypeMasterNotAccept);
  ("Homebrew2015_TypeMasterClosing", p_Homebrew2015_TypeMasterClosing);
  ("Homebrew2015_TypeRepeaterClosing", p_Homebrew2015_TypeRepeaterClosing);
  ("Mmdvm2020_TypeMasterPong", p_Mmdvm2020_TypeMasterPong);
  ("Mmdvm2020_TypeRadioPosition", (fun _ => p_Mmdvm2020_TypeRadioPosition));
  ("Mmdvm2020_TypeTalkerAlias", p_Mmdvm2020_TypeTalkerAlias);
  ("Mmdvm2020_TypeRepeaterLoginResponse", p_Mmdvm2020_TypeRepeaterLoginResponse);
  ("Mmdvm2020_TypeRepeaterLoginRequest", p_Mmdvm2020_TypeRepeaterLoginRequest);
  ("Mmdvm2020_TypeMasterNotAccept", p_Mmdvm2020_TypeMasterNotAccept);
  ("Mmdvm2020_TypeMasterRepeaterAck", p_Mmdvm2020_TypeMasterRepeaterAck);
  ("Mmdvm2020_TypeMasterClosing", p_Mmdvm2020_TypeMasterClosing);
  ("Mmdvm2020_TypeRepeaterBeacon", (fun _ => p_Mmdvm2020_TypeRepeaterBeacon));
  ("Mmdvm2020_TypeRepeaterClosing", p_Mmdvm2020_TypeRepeaterClosing);
  ("Mmdvm2020_TypeRepeaterPing", p_Mmdvm2020_TypeRepeaterPing);
  ("RadioIp", p_RadioIp);
  ("RadioId", p_RadioId);
  ("Datetimestring", p_Datetimestring);
  ("Intervalstring", p_Intervalstring);
  ("Gpsdata", p_Gpsdata);
  ("RadioRegistrationService", p_RadioRegistrationService);
  ("DataDeliveryStates", p_DataDeliveryStates);
  ("DataTransmitProtocol_LastDataSlice", p_DataTransmitProtocol_LastDataSlice);
  ("DataTransmitProtocol_DataSliceAnswer", p_DataTransmitProtocol_DataSliceAnswer);
  ("DataTransmitProtocol_LastDataSliceAnswer", p_DataTransmitProtocol_LastDataSliceAnswer);
  ("DataTransmitProtocol_DtpAnswer", p_DataTransmitProtocol_DtpAnswer);
  ("DataTransmitProtocol", p_DataTransmitProtocol);
  ("TextMessageProtocol", p_TextMessageProtocol);
  ("LocationProtocol_TriggeredReportStopAnswer", p_LocationProtocol_TriggeredReportStopAnswer);
  ("LocationProtocol_ConditionReportRequest", p_LocationProtocol_ConditionReportRequest);
  ("LocationProtocol_QuickGpsPayload", p_LocationProtocol_QuickGpsPayload);
  ("LocationProtocol_ConditionQuickGpsRequest", p_LocationProtocol_ConditionQuickGpsRequest);
  ("LocationProtocol_ConditionReport", p_LocationProtocol_ConditionReport);
  ("LocationProtocol_EmergencyReport", p_LocationProtocol_EmergencyReport);
  ("LocationProtocol_TriggeredReportAnswer", p_LocationProtocol_TriggeredReportAnswer);
  ("LocationProtocol_StandardAnswerWithRssi", p_LocationProtocol_StandardAnswerWithRssi);
  ("LocationProtocol_StandardRequest", p_LocationProtocol_StandardRequest);
  ("LocationProtocol_TriggeredReportRequest", p_LocationProtocol_TriggeredReportRequest);
  ("LocationProtocol_StandardAnswer", p_LocationProtocol_StandardAnswer);
  ("LocationProtocol_ConditionReportAnswer", p_LocationProtocol_ConditionReportAnswer);
  ("LocationProtocol_EmergencyReportStopRequest", p_LocationProtocol_EmergencyReportStopRequest);
  ("LocationProtocol_ConditionQuickGpsAnswer", p_LocationProtocol_ConditionQuickGpsAnswer);
  ("LocationProtocol_TriggeredReport", p_LocationProtocol_TriggeredReport);
  ("LocationProtocol_ConditionReportWithRssi", p_LocationProtocol_ConditionReportWithRssi);
  ("LocationProtocol_EmergencyReportStopAnswer", p_LocationProtocol_EmergencyReportStopAnswer);
  ("LocationProtocol_TriggeredReportStopRequest", p_LocationProtocol_TriggeredReportStopRequest);
  ("LocationProtocol", p_LocationProtocol);
  ("TelemetryProtocol_StandardStatusReport", p_TelemetryProtocol_StandardStatusReport);
  ("TelemetryProtocol_VioExtendedStatus", p_TelemetryProtocol_VioExtendedStatus);
  ("TelemetryProtocol_RemoteControlAnswer", p_TelemetryProtocol_RemoteControlAnswer);
  ("TelemetryProtocol_RemoteControlRequest", p_TelemetryProtocol_RemoteControlRequest);
  ("TelemetryProtocol_ExtendedStatusReport", p_TelemetryProtocol_ExtendedStatusReport);
  ("TelemetryProtocol_StandardStatusRequest", p_TelemetryProtocol_StandardStatusRequest);
  ("TelemetryProtocol", p_TelemetryProtocol);
  ("RadioControlProtocol_BroadcastStatusConfigurationReply", p_RadioControlProtocol_BroadcastStatusConfigurationReply);
  ("RadioControlProtocol_BroadcastConfiguration", p_RadioControlProtocol_BroadcastConfiguration);
  ("RadioControlProtocol_BroadcastStatusConfigurationRequest", p_RadioControlProtocol_BroadcastStatusConfigurationRequest);
  ("RadioControlProtocol_CallRequest", p_RadioControlProtocol_CallRequest);
  ("RadioControlProtocol_RemoveRadioReply", p_RadioControlProtocol_RemoveRadioReply);
  ("RadioControlProtocol_RemoveRadioRequest", (fun _ => p_RadioControlProtocol_RemoveRadioRequest));
  ("RadioControlProtocol_CallReply", p_RadioControlProtocol_CallReply);
  ("RadioControlProtocol", p_RadioControlProtocol);
  ("HyteraDmrApplicationProtocol", p_HyteraDmrApplicationProtocol);
  ("HyteraRadioNetworkProtocol", p_HyteraRadioNetworkProtocol);
  ("HyteraSimpleTransportReliabilityProtocol_Option", p_HyteraSimpleTransportReliabilityProtocol_Option);
  ("IpSiteConnectHeartbeat_Keepalive", p_IpSiteConnectHeartbeat_Keepalive);
  ("IpSiteConnectHeartbeat_PingPong", p_IpSiteConnectHeartbeat_PingPong);
  ("RealTimeTransportProtocol_FixedHeader", p_RealTimeTransportProtocol_FixedHeader);
  ("RealTimeTransportProtocol_HeaderExtension", p_RealTimeTransportProtocol_HeaderExtension);
  ("AutomaticRegistrationService_DeviceRegistrationMessageHeader", (fun _ => p_AutomaticRegistrationService_DeviceRegistrationMessageHeader));
  ("AutomaticRegistrationService_MessageHeaderBits", (fun _ => p_AutomaticRegistrationService_MessageHeaderBits));
  ("AutomaticRegistrationService_DeviceDeregistrationMessage", (fun _ => p_AutomaticRegistrationService_DeviceDeregistrationMessage));
  ("AutomaticRegistrationService_DeviceRegistrationAcknowledgementFailureReason", (fun _ => p_AutomaticRegistrationService_DeviceRegistrationAcknowledgementFailureReason));
  ("AutomaticRegistrationService_DeviceRegistrationAcknowledgementHeader", (fun _ => p_AutomaticRegistrationService_DeviceRegistrationAcknowledgementHeader));
  ("AutomaticRegistrationService_ArsQueryMessage", (fun _ => p_AutomaticRegistrationService_ArsQueryMessage));
  ("MotTextMessageProtocol_TextMessageHeaderSequenceAndEncoding", (fun _ => p_MotTextMessageProtocol_TextMessageHeaderSequenceAndEncoding));
  ("MotTextMessageProtocol_TmsServiceAvailabilityHeader", (fun _ => p_MotTextMessageProtocol_TmsServiceAvailabilityHeader));
  ("MotTextMessageProtocol_MessageHeaderBits", (fun _ => p_MotTextMessageProtocol_MessageHeaderBits));
  ("MotTextMessageProtocol_TmsAcknowledgementHeaderSequenceNumber", (fun _ => p_MotTextMessageProtocol_TmsAcknowledgementHeaderSequenceNumber));
  ("MotTextMessageProtocol_TmsServiceAvailabilityAcknowledgement", (fun _ => p_MotTextMessageProtocol_TmsServiceAvailabilityAcknowledgement));
  ("MotorolaBinaryXml_OpaqueElementValue", p_MotorolaBinaryXml_OpaqueElementValue);
  ("MotorolaBinaryXml_Opaque1byteValue", p_MotorolaBinaryXml_Opaque1byteValue);
  ("MotorolaBinaryXml_Opaque2byteValue", p_MotorolaBinaryXml_Opaque2byteValue);
  ("MotorolaBinaryXml_Opaque3byteValue", p_MotorolaBinaryXml_Opaque3byteValue);
  ("MotorolaBinaryXml_Opaque4byteValue", p_MotorolaBinaryXml_Opaque4byteValue);
  ("MotorolaBinaryXml_Opaque5byteValue", p_MotorolaBinaryXml_Opaque5byteValue)].

Lemma self_delimiting_stable : Forall (fun np => forall rt, stable (snd np rt)) self_delimiting.
Proof. unfold self_delimiting. repeat (apply Forall_cons; [intros rt; cbn [snd]; cbv beta; auto with stab|]). apply Forall_nil. Qed.
