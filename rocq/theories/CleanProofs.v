(** Every object a parser returns has proper attribute names: none of the bookkeeping names and no name
    twice, at every depth.  (Support for C48.) *)
From Verif Require Import PyBase Runtime Codec Enums Getters EtsiModel HomebrewModel HyteraModel MotorolaModel.
Open Scope string_scope.
Open Scope list_scope.
Open Scope Z_scope.

Definition bookkeeping : list string := ["_io"; "_parent"; "_root"; "_debug"].
Fixpoint distinct (l : list string) : bool :=
  match l with [] => true | n :: l' => negb (existsb (String.eqb n) l') && distinct l' end.
Fixpoint clean (v : pyval) : bool :=
  match v with
  | VObj _ a => distinct (map fst a) &&
      (fix go (a : attrs) : bool := match a with [] => true | (n, x) :: a' => negb (existsb (String.eqb n) bookkeeping) && clean x && go a' end) a
  | VList l => forallb clean l
  | _ => true
  end.

(** Partial correctness of a parser action: what holds of its result whenever it returns one. *)
Definition yields {A} (m : M A) (Q : A -> Prop) : Prop := forall s a s', m s = (Ok a, s') -> Q a.
Lemma yields_ret {A} (a : A) (Q : A -> Prop) : Q a -> yields (ret a) Q.
Proof. intros H s x s' E. unfold ret in E. assert (x = a) by congruence. subst. exact H. Qed.
Lemma yields_fail {A} e (Q : A -> Prop) : yields (fail e) Q.
Proof. intros s x s' E. discriminate. Qed.
Lemma yields_any {A} (m : M A) : yields m (fun _ => True).
Proof. intros s a s' _. exact I. Qed.
Lemma yields_bind {A B} (m : M A) (k : A -> M B) P Q : yields m P -> (forall a, P a -> yields (k a) Q) -> yields (bind m k) Q.
Proof.
  intros H1 H2 s b s' E. unfold bind in E. destruct (m s) as [[a|e] s1] eqn:Em; [|discriminate]. exact (H2 a (H1 _ _ _ Em) _ _ _ E).
Qed.
Lemma yields_bind_any {A B} (m : M A) (k : A -> M B) Q : (forall a, yields (k a) Q) -> yields (bind m k) Q.
Proof. intros H. eapply yields_bind; [apply yields_any|auto]. Qed.
Lemma yields_assoc {A B C} (m : M A) (k : A -> M B) (l : B -> M C) Q : yields (bind m (fun x => bind (k x) l)) Q -> yields (bind (bind m k) l) Q.
Proof.
  intros H s c s' E. apply (H s c s'). unfold bind in *. destruct (m s) as [[a|e] s1]; [exact E|discriminate].
Qed.
Lemma yields_bind_ret {A B} (a : A) (k : A -> M B) Q : yields (k a) Q -> yields (bind (ret a) k) Q.
Proof. intros H. exact H. Qed.
Lemma yields_fuel {A} (loop : nat -> M A) Q : (forall n, yields (loop n) Q) -> yields (with_fuel loop) Q.
Proof. intros H s a s' E. exact (H _ _ _ _ E). Qed.

Notation CV := (fun v => clean v = true).
Notation CO := (fun o => match o with Some v => clean v = true | None => True end).
Notation CL := (fun l => forallb clean l = true).

Create HintDb clean discriminated.
#[global] Hint Constants Opaque : clean.
#[global] Hint Variables Opaque : clean.
Lemma clean_enum E z : clean (resolve_enum E z) = true.
Proof. unfold resolve_enum. destruct (en_find _ _); reflexivity. Qed.
Lemma clean_vint m : yields (vint m) CV.
Proof. apply yields_bind_any. intros x. apply yields_ret. reflexivity. Qed.
Lemma clean_vbits n : yields (vbits n) CV.
Proof. apply clean_vint. Qed.
Lemma clean_vflag : yields vflag CV.
Proof. apply yields_bind_any. intros x. apply yields_ret. reflexivity. Qed.
Lemma clean_venum E m : yields (venum E m) CV.
Proof. apply yields_bind_any. intros x. apply yields_ret. apply clean_enum. Qed.
Lemma clean_vbytes rt n : yields (vbytes rt n) CV.
Proof. apply yields_bind_any. intros x. apply yields_ret. reflexivity. Qed.
Lemma clean_vfull rt : yields (vfull rt) CV.
Proof. apply yields_bind_any. intros x. apply yields_ret. reflexivity. Qed.
Lemma clean_vstr rt e n : yields (vstr rt e n) CV.
Proof. apply yields_bind_any. intros x. apply yields_ret. reflexivity. Qed.
Lemma clean_vstr_full rt e : yields (vstr_full rt e) CV.
Proof. unfold vstr_full. repeat (apply yields_bind_any; intros ?). apply yields_ret. reflexivity. Qed.
Lemma clean_expect rt l p : yields (expect_bytes rt l p) CV.
Proof. apply yields_bind_any. intros x. destruct (bytes_eqb x l); [apply yields_ret; reflexivity|apply yields_fail]. Qed.
Lemma clean_aligned (m : M pyval) : yields m CV -> yields (aligned m) CV.
Proof. intros H. apply yields_bind_any. intros _. exact H. Qed.
Lemma clean_some (m : M pyval) : yields m CV -> yields (some m) CO.
Proof. intros H. eapply yields_bind; [exact H|]. intros a Ha. apply yields_ret. exact Ha. Qed.
Lemma clean_none : yields none CO.
Proof. apply yields_ret. exact I. Qed.
Lemma clean_lift (m : M pyval) b : yields m CV -> yields (lift (from_bytes m b)) CV.
Proof. intros H s a s' E. unfold lift, from_bytes in E. destruct (m (stream_of b)) as [r s1] eqn:Em. cbn [fst] in E. assert (r = Ok a) as -> by congruence. exact (H _ _ _ Em). Qed.
Lemma clean_repeat n m : yields m CV -> yields (repeat_n n m) CL.
Proof.
  intros H. induction n as [|n IH]; cbn [repeat_n]; [apply yields_ret; reflexivity|]. eapply yields_bind; [exact H|]. intros v Hv.
  eapply yields_bind; [exact IH|]. intros l Hl. apply yields_ret. cbn [forallb]. rewrite Hv, Hl. reflexivity.
Qed.
Lemma clean_range n m : yields m CV -> yields (for_range n m) CL.
Proof. apply clean_repeat. Qed.
Lemma clean_fuel (loop : nat -> M (list pyval)) : (forall n, yields (loop n) CL) -> yields (with_fuel loop) CL.
Proof. apply yields_fuel. Qed.
#[global] Hint Resolve clean_vbits clean_vint clean_vflag clean_venum clean_vbytes clean_vfull clean_vstr clean_expect clean_aligned clean_some clean_none clean_vstr_full clean_range clean_lift clean_fuel : clean.

(** the closing step: an explicit attribute list, with optional parts *)
Lemma clean_obj c a : clean (VObj c a) = distinct (map fst a) && forallb (fun nv => negb (existsb (String.eqb (fst nv)) bookkeeping) && clean (snd nv)) a.
Proof. cbn [clean]. f_equal. induction a as [|[n x] a IH]; [reflexivity|]. cbn [forallb fst snd]. rewrite IH. reflexivity. Qed.
Lemma clean_list l : clean (VList l) = forallb clean l.
Proof. reflexivity. Qed.
Ltac clean_end :=
  repeat match goal with |- context [opt _ (option_map _ ?o)] => is_var o; destruct o; cbn [option_map] | |- context [opt _ ?o] => is_var o; destruct o end;
  rewrite ?clean_obj; cbn [app opt option_map map fst snd forallb]; rewrite ?clean_list;
  repeat match goal with H : clean ?v = true |- context [clean ?v] => rewrite H | H : forallb clean ?v = true |- context [forallb clean ?v] => rewrite H end;
  rewrite ?clean_enum; try reflexivity.
Ltac yield_step := match goal with
  | |- yields (bind (bind _ _) _) _ => apply yields_assoc
  | |- yields (bind (ret _) _) _ => apply yields_bind_ret
  | |- yields (bind (seq _) _) _ => progress cbn [seq]
  | |- yields (bind (if ?c then _ else _) _) _ =>
      match goal with |- yields (@bind (option pyval) _ _ _) _ => apply (yields_bind _ _ CO); [|intros ? ?]
                    | |- yields (@bind pyval _ _ _) _ => apply (yields_bind _ _ CV); [|intros ? ?]
                    | |- yields (@bind (list pyval) _ _ _) _ => apply (yields_bind _ _ CL); [|intros ? ?]
                    | |- _ => destruct c end
  | |- yields (@bind (option pyval) _ _ _) _ => apply (yields_bind _ _ CO); [solve [auto 6 with clean]|intros ? ?]
  | |- yields (@bind pyval _ _ _) _ => apply (yields_bind _ _ CV); [solve [auto 6 with clean]|intros ? ?]
  | |- yields (@bind (list pyval) _ _ _) _ => apply (yields_bind _ _ CL); [solve [auto 6 with clean]|intros ? ?]
  | |- yields (bind _ _) _ => apply yields_bind_any; intros ?
  | |- yields (if ?c then _ else _) _ => destruct c
  | |- yields (match ?c with _ => _ end) _ => destruct c
  | |- yields (fail _) _ => apply yields_fail
  | |- yields (ret _) _ => apply yields_ret
  | |- yields _ _ => solve [auto 6 with clean]
  | |- yields (obj _ _) _ => unfold obj; cbn [seq]
  end.
Ltac yield := repeat yield_step; try clean_end.
Lemma clean_p_DmrCsbk_NegativeAckResponseData  : yields (p_DmrCsbk_NegativeAckResponseData ) CV.
Proof. unfold p_DmrCsbk_NegativeAckResponseData. yield. Qed.
#[global] Hint Resolve clean_p_DmrCsbk_NegativeAckResponseData : clean.
Lemma clean_p_DmrCsbk_ServiceOptions  : yields (p_DmrCsbk_ServiceOptions ) CV.
Proof. unfold p_DmrCsbk_ServiceOptions. yield. Qed.
#[global] Hint Resolve clean_p_DmrCsbk_ServiceOptions : clean.
Lemma clean_p_DmrCsbk_UnitToUnitVoiceRequestData  : yields (p_DmrCsbk_UnitToUnitVoiceRequestData ) CV.
Proof. unfold p_DmrCsbk_UnitToUnitVoiceRequestData. yield. Qed.
#[global] Hint Resolve clean_p_DmrCsbk_UnitToUnitVoiceRequestData : clean.
Lemma clean_p_DmrCsbk_PreambleData  : yields (p_DmrCsbk_PreambleData ) CV.
Proof. unfold p_DmrCsbk_PreambleData. yield. Qed.
#[global] Hint Resolve clean_p_DmrCsbk_PreambleData : clean.
Lemma clean_p_DmrCsbk_ChannelTimingData  : yields (p_DmrCsbk_ChannelTimingData ) CV.
Proof. unfold p_DmrCsbk_ChannelTimingData. yield. Qed.
#[global] Hint Resolve clean_p_DmrCsbk_ChannelTimingData : clean.
Lemma clean_p_DmrCsbk_BsOutboundActivationData  : yields (p_DmrCsbk_BsOutboundActivationData ) CV.
Proof. unfold p_DmrCsbk_BsOutboundActivationData. yield. Qed.
#[global] Hint Resolve clean_p_DmrCsbk_BsOutboundActivationData : clean.
Lemma clean_p_DmrCsbk_UnitToUnitVoiceAnswerData  : yields (p_DmrCsbk_UnitToUnitVoiceAnswerData ) CV.
Proof. unfold p_DmrCsbk_UnitToUnitVoiceAnswerData. yield. Qed.
#[global] Hint Resolve clean_p_DmrCsbk_UnitToUnitVoiceAnswerData : clean.
Lemma clean_p_DmrCsbk  : yields (p_DmrCsbk ) CV.
Proof. unfold p_DmrCsbk. yield. Qed.
#[global] Hint Resolve clean_p_DmrCsbk : clean.
Lemma clean_p_DmrData_Rate1LastBlockUnconfirmed rt : yields (p_DmrData_Rate1LastBlockUnconfirmed rt) CV.
Proof. unfold p_DmrData_Rate1LastBlockUnconfirmed. yield. Qed.
#[global] Hint Resolve clean_p_DmrData_Rate1LastBlockUnconfirmed : clean.
Lemma clean_p_DmrData_Rate12LastBlockConfirmed rt : yields (p_DmrData_Rate12LastBlockConfirmed rt) CV.
Proof. unfold p_DmrData_Rate12LastBlockConfirmed. yield. Qed.
#[global] Hint Resolve clean_p_DmrData_Rate12LastBlockConfirmed : clean.
Lemma clean_p_DmrData_Rate12Confirmed rt : yields (p_DmrData_Rate12Confirmed rt) CV.
Proof. unfold p_DmrData_Rate12Confirmed. yield. Qed.
#[global] Hint Resolve clean_p_DmrData_Rate12Confirmed : clean.
Lemma clean_p_DmrData_Rate34LastBlockUnconfirmed rt : yields (p_DmrData_Rate34LastBlockUnconfirmed rt) CV.
Proof. unfold p_DmrData_Rate34LastBlockUnconfirmed. yield. Qed.
#[global] Hint Resolve clean_p_DmrData_Rate34LastBlockUnconfirmed : clean.
Lemma clean_p_DmrData_Rate1LastBlockConfirmed rt : yields (p_DmrData_Rate1LastBlockConfirmed rt) CV.
Proof. unfold p_DmrData_Rate1LastBlockConfirmed. yield. Qed.
#[global] Hint Resolve clean_p_DmrData_Rate1LastBlockConfirmed : clean.
Lemma clean_p_DmrData_Rate1Unconfirmed rt : yields (p_DmrData_Rate1Unconfirmed rt) CV.
Proof. unfold p_DmrData_Rate1Unconfirmed. yield. Qed.
#[global] Hint Resolve clean_p_DmrData_Rate1Unconfirmed : clean.
Lemma clean_p_DmrData_UdtLastBlock rt : yields (p_DmrData_UdtLastBlock rt) CV.
Proof. unfold p_DmrData_UdtLastBlock. yield. Qed.
#[global] Hint Resolve clean_p_DmrData_UdtLastBlock : clean.
Lemma clean_p_DmrData_Rate34Confirmed rt : yields (p_DmrData_Rate34Confirmed rt) CV.
Proof. unfold p_DmrData_Rate34Confirmed. yield. Qed.
#[global] Hint Resolve clean_p_DmrData_Rate34Confirmed : clean.
Lemma clean_p_DmrData_Rate34LastBlockConfirmed rt : yields (p_DmrData_Rate34LastBlockConfirmed rt) CV.
Proof. unfold p_DmrData_Rate34LastBlockConfirmed. yield. Qed.
#[global] Hint Resolve clean_p_DmrData_Rate34LastBlockConfirmed : clean.
Lemma clean_p_DmrData_Rate34Unconfirmed rt : yields (p_DmrData_Rate34Unconfirmed rt) CV.
Proof. unfold p_DmrData_Rate34Unconfirmed. yield. Qed.
#[global] Hint Resolve clean_p_DmrData_Rate34Unconfirmed : clean.
Lemma clean_p_DmrData_Rate12LastBlockUnconfirmed rt : yields (p_DmrData_Rate12LastBlockUnconfirmed rt) CV.
Proof. unfold p_DmrData_Rate12LastBlockUnconfirmed. yield. Qed.
#[global] Hint Resolve clean_p_DmrData_Rate12LastBlockUnconfirmed : clean.
Lemma clean_p_DmrData_Rate1Confirmed rt : yields (p_DmrData_Rate1Confirmed rt) CV.
Proof. unfold p_DmrData_Rate1Confirmed. yield. Qed.
#[global] Hint Resolve clean_p_DmrData_Rate1Confirmed : clean.
Lemma clean_p_DmrData_Rate12Unconfirmed rt : yields (p_DmrData_Rate12Unconfirmed rt) CV.
Proof. unfold p_DmrData_Rate12Unconfirmed. yield. Qed.
#[global] Hint Resolve clean_p_DmrData_Rate12Unconfirmed : clean.
Lemma clean_p_DmrData  : yields (p_DmrData ) CV.
Proof. unfold p_DmrData. yield. Qed.
#[global] Hint Resolve clean_p_DmrData : clean.
Lemma clean_p_DmrDataHeader_DataHeaderShortRaw rt : yields (p_DmrDataHeader_DataHeaderShortRaw rt) CV.
Proof. unfold p_DmrDataHeader_DataHeaderShortRaw. yield. Qed.
#[global] Hint Resolve clean_p_DmrDataHeader_DataHeaderShortRaw : clean.
Lemma clean_p_DmrDataHeader_DataHeaderProprietary rt : yields (p_DmrDataHeader_DataHeaderProprietary rt) CV.
Proof. unfold p_DmrDataHeader_DataHeaderProprietary. yield. Qed.
#[global] Hint Resolve clean_p_DmrDataHeader_DataHeaderProprietary : clean.
Lemma clean_p_DmrDataHeader_DataHeaderUndefined rt : yields (p_DmrDataHeader_DataHeaderUndefined rt) CV.
Proof. unfold p_DmrDataHeader_DataHeaderUndefined. yield. Qed.
#[global] Hint Resolve clean_p_DmrDataHeader_DataHeaderUndefined : clean.
Lemma clean_p_DmrDataHeader_DataHeaderShortStatusPrecoded rt : yields (p_DmrDataHeader_DataHeaderShortStatusPrecoded rt) CV.
Proof. unfold p_DmrDataHeader_DataHeaderShortStatusPrecoded. yield. Qed.
#[global] Hint Resolve clean_p_DmrDataHeader_DataHeaderShortStatusPrecoded : clean.
Lemma clean_p_DmrDataHeader_DataHeaderResponse rt : yields (p_DmrDataHeader_DataHeaderResponse rt) CV.
Proof. unfold p_DmrDataHeader_DataHeaderResponse. yield. Qed.
#[global] Hint Resolve clean_p_DmrDataHeader_DataHeaderResponse : clean.
Lemma clean_p_DmrDataHeader_DataHeaderConfirmed rt : yields (p_DmrDataHeader_DataHeaderConfirmed rt) CV.
Proof. unfold p_DmrDataHeader_DataHeaderConfirmed. yield. Qed.
#[global] Hint Resolve clean_p_DmrDataHeader_DataHeaderConfirmed : clean.
Lemma clean_p_DmrDataHeader_DataHeaderUnconfirmed rt : yields (p_DmrDataHeader_DataHeaderUnconfirmed rt) CV.
Proof. unfold p_DmrDataHeader_DataHeaderUnconfirmed. yield. Qed.
#[global] Hint Resolve clean_p_DmrDataHeader_DataHeaderUnconfirmed : clean.
Lemma clean_p_DmrDataHeader_DataHeaderShortDefined rt : yields (p_DmrDataHeader_DataHeaderShortDefined rt) CV.
Proof. unfold p_DmrDataHeader_DataHeaderShortDefined. yield. Qed.
#[global] Hint Resolve clean_p_DmrDataHeader_DataHeaderShortDefined : clean.
Lemma clean_p_DmrDataHeader_DataHeaderUdt rt : yields (p_DmrDataHeader_DataHeaderUdt rt) CV.
Proof. unfold p_DmrDataHeader_DataHeaderUdt. yield. Qed.
#[global] Hint Resolve clean_p_DmrDataHeader_DataHeaderUdt : clean.
Lemma clean_p_DmrDataHeader  : yields (p_DmrDataHeader ) CV.
Proof. unfold p_DmrDataHeader. yield. Qed.
#[global] Hint Resolve clean_p_DmrDataHeader : clean.
Lemma clean_data_header_body rt x1 : yields (data_header_body rt x1) CV.
Proof. unfold data_header_body. yield. Qed.
#[global] Hint Resolve clean_data_header_body : clean.
Lemma clean_data_header_compute rt x1 : yields (data_header_compute rt x1) CV.
Proof. unfold data_header_compute. yield. Qed.
#[global] Hint Resolve clean_data_header_compute : clean.
Lemma clean_p_DmrIpUdp_UdpIpv4CompressedHeader rt : yields (p_DmrIpUdp_UdpIpv4CompressedHeader rt) CV.
Proof. unfold p_DmrIpUdp_UdpIpv4CompressedHeader. yield. Qed.
#[global] Hint Resolve clean_p_DmrIpUdp_UdpIpv4CompressedHeader : clean.
Lemma clean_p_DmrIpUdp  : yields (p_DmrIpUdp ) CV.
Proof. unfold p_DmrIpUdp. yield. Qed.
#[global] Hint Resolve clean_p_DmrIpUdp : clean.
Lemma clean_p_FullLinkControl_GpsInfoLcPdu  : yields (p_FullLinkControl_GpsInfoLcPdu ) CV.
Proof. unfold p_FullLinkControl_GpsInfoLcPdu. yield. Qed.
#[global] Hint Resolve clean_p_FullLinkControl_GpsInfoLcPdu : clean.
Lemma clean_p_FullLinkControl_GroupVoiceChannelUser  : yields (p_FullLinkControl_GroupVoiceChannelUser ) CV.
Proof. unfold p_FullLinkControl_GroupVoiceChannelUser. yield. Qed.
#[global] Hint Resolve clean_p_FullLinkControl_GroupVoiceChannelUser : clean.
Lemma clean_p_FullLinkControl_UnitToUnitVoiceChannelUser  : yields (p_FullLinkControl_UnitToUnitVoiceChannelUser ) CV.
Proof. unfold p_FullLinkControl_UnitToUnitVoiceChannelUser. yield. Qed.
#[global] Hint Resolve clean_p_FullLinkControl_UnitToUnitVoiceChannelUser : clean.
Lemma clean_p_FullLinkControl_TalkerAliasHeader  : yields (p_FullLinkControl_TalkerAliasHeader ) CV.
Proof. unfold p_FullLinkControl_TalkerAliasHeader. yield. Qed.
#[global] Hint Resolve clean_p_FullLinkControl_TalkerAliasHeader : clean.
Lemma clean_p_FullLinkControl_TalkerAliasContinuation  : yields (p_FullLinkControl_TalkerAliasContinuation ) CV.
Proof. unfold p_FullLinkControl_TalkerAliasContinuation. yield. Qed.
#[global] Hint Resolve clean_p_FullLinkControl_TalkerAliasContinuation : clean.
Lemma clean_p_FullLinkControl rt : yields (p_FullLinkControl rt) CV.
Proof. unfold p_FullLinkControl. yield. Qed.
#[global] Hint Resolve clean_p_FullLinkControl : clean.
Lemma clean_p_Homebrew2015_TypeMasterPing rt : yields (p_Homebrew2015_TypeMasterPing rt) CV.
Proof. unfold p_Homebrew2015_TypeMasterPing. yield. Qed.
#[global] Hint Resolve clean_p_Homebrew2015_TypeMasterPing : clean.
Lemma clean_p_Homebrew2015_TypeRepeaterPong rt : yields (p_Homebrew2015_TypeRepeaterPong rt) CV.
Proof. unfold p_Homebrew2015_TypeRepeaterPong. yield. Qed.
#[global] Hint Resolve clean_p_Homebrew2015_TypeRepeaterPong : clean.
Lemma clean_p_Homebrew2015_TypeRepeaterLoginResponse rt : yields (p_Homebrew2015_TypeRepeaterLoginResponse rt) CV.
Proof. unfold p_Homebrew2015_TypeRepeaterLoginResponse. yield. Qed.
#[global] Hint Resolve clean_p_Homebrew2015_TypeRepeaterLoginResponse : clean.
Lemma clean_p_Homebrew2015_TypeRepeaterLoginRequest rt : yields (p_Homebrew2015_TypeRepeaterLoginRequest rt) CV.
Proof. unfold p_Homebrew2015_TypeRepeaterLoginRequest. yield. Qed.
#[global] Hint Resolve clean_p_Homebrew2015_TypeRepeaterLoginRequest : clean.
Lemma clean_p_Homebrew2015_TypeMasterNotAccept rt : yields (p_Homebrew2015_TypeMasterNotAccept rt) CV.
Proof. unfold p_Homebrew2015_TypeMasterNotAccept. yield. Qed.
#[global] Hint Resolve clean_p_Homebrew2015_TypeMasterNotAccept : clean.
Lemma clean_p_Homebrew2015_TypeMasterRepeaterAck rt : yields (p_Homebrew2015_TypeMasterRepeaterAck rt) CV.
Proof. unfold p_Homebrew2015_TypeMasterRepeaterAck. yield. Qed.
#[global] Hint Resolve clean_p_Homebrew2015_TypeMasterRepeaterAck : clean.
Lemma clean_p_Homebrew2015_TypeMasterClosing rt : yields (p_Homebrew2015_TypeMasterClosing rt) CV.
Proof. unfold p_Homebrew2015_TypeMasterClosing. yield. Qed.
#[global] Hint Resolve clean_p_Homebrew2015_TypeMasterClosing : clean.
Lemma clean_p_Homebrew2015_TypeDmrData rt : yields (p_Homebrew2015_TypeDmrData rt) CV.
Proof. unfold p_Homebrew2015_TypeDmrData. yield. Qed.
#[global] Hint Resolve clean_p_Homebrew2015_TypeDmrData : clean.
Lemma clean_p_Homebrew2015_TypeRepeaterOptions rt : yields (p_Homebrew2015_TypeRepeaterOptions rt) CV.
Proof. unfold p_Homebrew2015_TypeRepeaterOptions. yield. Qed.
#[global] Hint Resolve clean_p_Homebrew2015_TypeRepeaterOptions : clean.
Lemma clean_p_Homebrew2015_TypeRepeaterClosing rt : yields (p_Homebrew2015_TypeRepeaterClosing rt) CV.
Proof. unfold p_Homebrew2015_TypeRepeaterClosing. yield. Qed.
#[global] Hint Resolve clean_p_Homebrew2015_TypeRepeaterClosing : clean.
Lemma clean_p_Homebrew2015_TypeRepeaterConfiguration rt : yields (p_Homebrew2015_TypeRepeaterConfiguration rt) CV.
Proof. unfold p_Homebrew2015_TypeRepeaterConfiguration. yield. Qed.
#[global] Hint Resolve clean_p_Homebrew2015_TypeRepeaterConfiguration : clean.
Lemma clean_p_Homebrew2015_TypeRepeaterConfigurationOrClosing rt x1 : yields (p_Homebrew2015_TypeRepeaterConfigurationOrClosing rt x1) CV.
Proof. unfold p_Homebrew2015_TypeRepeaterConfigurationOrClosing. yield. Qed.
#[global] Hint Resolve clean_p_Homebrew2015_TypeRepeaterConfigurationOrClosing : clean.
Lemma clean_p_Homebrew2015 rt : yields (p_Homebrew2015 rt) CV.
Proof. unfold p_Homebrew2015. yield. Qed.
#[global] Hint Resolve clean_p_Homebrew2015 : clean.
Lemma clean_p_Mmdvm2020_TypeMasterPong rt : yields (p_Mmdvm2020_TypeMasterPong rt) CV.
Proof. unfold p_Mmdvm2020_TypeMasterPong. yield. Qed.
#[global] Hint Resolve clean_p_Mmdvm2020_TypeMasterPong : clean.
Lemma clean_p_Mmdvm2020_TypeRadioPosition  : yields (p_Mmdvm2020_TypeRadioPosition ) CV.
Proof. unfold p_Mmdvm2020_TypeRadioPosition. yield. Qed.
#[global] Hint Resolve clean_p_Mmdvm2020_TypeRadioPosition : clean.
Lemma clean_p_Mmdvm2020_TypeTalkerAlias rt : yields (p_Mmdvm2020_TypeTalkerAlias rt) CV.
Proof. unfold p_Mmdvm2020_TypeTalkerAlias. yield. Qed.
#[global] Hint Resolve clean_p_Mmdvm2020_TypeTalkerAlias : clean.
Lemma clean_p_Mmdvm2020_TypeRepeaterLoginResponse rt : yields (p_Mmdvm2020_TypeRepeaterLoginResponse rt) CV.
Proof. unfold p_Mmdvm2020_TypeRepeaterLoginResponse. yield. Qed.
#[global] Hint Resolve clean_p_Mmdvm2020_TypeRepeaterLoginResponse : clean.
Lemma clean_p_Mmdvm2020_TypeRepeaterLoginRequest rt : yields (p_Mmdvm2020_TypeRepeaterLoginRequest rt) CV.
Proof. unfold p_Mmdvm2020_TypeRepeaterLoginRequest. yield. Qed.
#[global] Hint Resolve clean_p_Mmdvm2020_TypeRepeaterLoginRequest : clean.
Lemma clean_p_Mmdvm2020_TypeMasterNotAccept rt : yields (p_Mmdvm2020_TypeMasterNotAccept rt) CV.
Proof. unfold p_Mmdvm2020_TypeMasterNotAccept. yield. Qed.
#[global] Hint Resolve clean_p_Mmdvm2020_TypeMasterNotAccept : clean.
Lemma clean_p_Mmdvm2020_TypeUnknown rt : yields (p_Mmdvm2020_TypeUnknown rt) CV.
Proof. unfold p_Mmdvm2020_TypeUnknown. yield. Qed.
#[global] Hint Resolve clean_p_Mmdvm2020_TypeUnknown : clean.
Lemma clean_p_Mmdvm2020_TypeMasterRepeaterAck rt : yields (p_Mmdvm2020_TypeMasterRepeaterAck rt) CV.
Proof. unfold p_Mmdvm2020_TypeMasterRepeaterAck. yield. Qed.
#[global] Hint Resolve clean_p_Mmdvm2020_TypeMasterRepeaterAck : clean.
Lemma clean_p_Mmdvm2020_TypeMasterClosing rt : yields (p_Mmdvm2020_TypeMasterClosing rt) CV.
Proof. unfold p_Mmdvm2020_TypeMasterClosing. yield. Qed.
#[global] Hint Resolve clean_p_Mmdvm2020_TypeMasterClosing : clean.
Lemma clean_p_Mmdvm2020_TypeDmrData rt : yields (p_Mmdvm2020_TypeDmrData rt) CV.
Proof. unfold p_Mmdvm2020_TypeDmrData. yield. Qed.
#[global] Hint Resolve clean_p_Mmdvm2020_TypeDmrData : clean.
Lemma clean_p_Mmdvm2020_TypeRepeaterBeacon  : yields (p_Mmdvm2020_TypeRepeaterBeacon ) CV.
Proof. unfold p_Mmdvm2020_TypeRepeaterBeacon. yield. Qed.
#[global] Hint Resolve clean_p_Mmdvm2020_TypeRepeaterBeacon : clean.
Lemma clean_p_Mmdvm2020_TypeRepeaterOptions rt : yields (p_Mmdvm2020_TypeRepeaterOptions rt) CV.
Proof. unfold p_Mmdvm2020_TypeRepeaterOptions. yield. Qed.
#[global] Hint Resolve clean_p_Mmdvm2020_TypeRepeaterOptions : clean.
Lemma clean_p_Mmdvm2020_TypeRepeaterClosing rt : yields (p_Mmdvm2020_TypeRepeaterClosing rt) CV.
Proof. unfold p_Mmdvm2020_TypeRepeaterClosing. yield. Qed.
#[global] Hint Resolve clean_p_Mmdvm2020_TypeRepeaterClosing : clean.
Lemma clean_p_Mmdvm2020_TypeRepeaterConfiguration rt : yields (p_Mmdvm2020_TypeRepeaterConfiguration rt) CV.
Proof. unfold p_Mmdvm2020_TypeRepeaterConfiguration. yield. Qed.
#[global] Hint Resolve clean_p_Mmdvm2020_TypeRepeaterConfiguration : clean.
Lemma clean_p_Mmdvm2020_TypeRepeaterPing rt : yields (p_Mmdvm2020_TypeRepeaterPing rt) CV.
Proof. unfold p_Mmdvm2020_TypeRepeaterPing. yield. Qed.
#[global] Hint Resolve clean_p_Mmdvm2020_TypeRepeaterPing : clean.
Lemma clean_p_Mmdvm2020_TypeRepeaterConfigurationOrClosing rt x1 : yields (p_Mmdvm2020_TypeRepeaterConfigurationOrClosing rt x1) CV.
Proof. unfold p_Mmdvm2020_TypeRepeaterConfigurationOrClosing. yield. Qed.
#[global] Hint Resolve clean_p_Mmdvm2020_TypeRepeaterConfigurationOrClosing : clean.
Lemma clean_p_Mmdvm2020 rt : yields (p_Mmdvm2020 rt) CV.
Proof. unfold p_Mmdvm2020. yield. Qed.
#[global] Hint Resolve clean_p_Mmdvm2020 : clean.
Lemma clean_p_RadioIp rt : yields (p_RadioIp rt) CV.
Proof. unfold p_RadioIp. yield. Qed.
#[global] Hint Resolve clean_p_RadioIp : clean.
Lemma clean_p_RadioId rt : yields (p_RadioId rt) CV.
Proof. unfold p_RadioId. yield. Qed.
#[global] Hint Resolve clean_p_RadioId : clean.
Lemma clean_p_Datetimestring rt : yields (p_Datetimestring rt) CV.
Proof. unfold p_Datetimestring. yield. Qed.
#[global] Hint Resolve clean_p_Datetimestring : clean.
Lemma clean_p_Intervalstring rt : yields (p_Intervalstring rt) CV.
Proof. unfold p_Intervalstring. yield. Qed.
#[global] Hint Resolve clean_p_Intervalstring : clean.
Lemma clean_p_Gpsdata rt : yields (p_Gpsdata rt) CV.
Proof. unfold p_Gpsdata. yield. Qed.
#[global] Hint Resolve clean_p_Gpsdata : clean.
Lemma clean_p_RadioRegistrationService rt : yields (p_RadioRegistrationService rt) CV.
Proof. unfold p_RadioRegistrationService. yield. Qed.
#[global] Hint Resolve clean_p_RadioRegistrationService : clean.
Lemma clean_p_DataDeliveryStates rt : yields (p_DataDeliveryStates rt) CV.
Proof. unfold p_DataDeliveryStates. yield. Qed.
#[global] Hint Resolve clean_p_DataDeliveryStates : clean.
Lemma clean_p_DataTransmitProtocol_LastDataSlice rt : yields (p_DataTransmitProtocol_LastDataSlice rt) CV.
Proof. unfold p_DataTransmitProtocol_LastDataSlice. yield. Qed.
#[global] Hint Resolve clean_p_DataTransmitProtocol_LastDataSlice : clean.
Lemma clean_p_DataTransmitProtocol_DtpRequest rt x1 : yields (p_DataTransmitProtocol_DtpRequest rt x1) CV.
Proof. unfold p_DataTransmitProtocol_DtpRequest. yield. Qed.
#[global] Hint Resolve clean_p_DataTransmitProtocol_DtpRequest : clean.
Lemma clean_p_DataTransmitProtocol_DataSliceAnswer rt : yields (p_DataTransmitProtocol_DataSliceAnswer rt) CV.
Proof. unfold p_DataTransmitProtocol_DataSliceAnswer. yield. Qed.
#[global] Hint Resolve clean_p_DataTransmitProtocol_DataSliceAnswer : clean.
Lemma clean_p_DataTransmitProtocol_DataSliceTransmit rt x1 : yields (p_DataTransmitProtocol_DataSliceTransmit rt x1) CV.
Proof. unfold p_DataTransmitProtocol_DataSliceTransmit. yield. Qed.
#[global] Hint Resolve clean_p_DataTransmitProtocol_DataSliceTransmit : clean.
Lemma clean_p_DataTransmitProtocol_LastDataSliceAnswer rt : yields (p_DataTransmitProtocol_LastDataSliceAnswer rt) CV.
Proof. unfold p_DataTransmitProtocol_LastDataSliceAnswer. yield. Qed.
#[global] Hint Resolve clean_p_DataTransmitProtocol_LastDataSliceAnswer : clean.
Lemma clean_p_DataTransmitProtocol_DtpAnswer rt : yields (p_DataTransmitProtocol_DtpAnswer rt) CV.
Proof. unfold p_DataTransmitProtocol_DtpAnswer. yield. Qed.
#[global] Hint Resolve clean_p_DataTransmitProtocol_DtpAnswer : clean.
Lemma clean_p_DataTransmitProtocol rt : yields (p_DataTransmitProtocol rt) CV.
Proof. unfold p_DataTransmitProtocol. yield. Qed.
#[global] Hint Resolve clean_p_DataTransmitProtocol : clean.
Lemma clean_p_TextMessageProtocol rt : yields (p_TextMessageProtocol rt) CV.
Proof. unfold p_TextMessageProtocol. yield. Qed.
#[global] Hint Resolve clean_p_TextMessageProtocol : clean.
Lemma clean_p_LocationProtocol_TriggeredReportStopAnswer rt : yields (p_LocationProtocol_TriggeredReportStopAnswer rt) CV.
Proof. unfold p_LocationProtocol_TriggeredReportStopAnswer. yield. Qed.
#[global] Hint Resolve clean_p_LocationProtocol_TriggeredReportStopAnswer : clean.
Lemma clean_p_LocationProtocol_ConditionReportRequest rt : yields (p_LocationProtocol_ConditionReportRequest rt) CV.
Proof. unfold p_LocationProtocol_ConditionReportRequest. yield. Qed.
#[global] Hint Resolve clean_p_LocationProtocol_ConditionReportRequest : clean.
Lemma clean_p_LocationProtocol_QuickGpsPayload rt : yields (p_LocationProtocol_QuickGpsPayload rt) CV.
Proof. unfold p_LocationProtocol_QuickGpsPayload. yield. Qed.
#[global] Hint Resolve clean_p_LocationProtocol_QuickGpsPayload : clean.
Lemma clean_p_LocationProtocol_ConditionQuickGpsRequest rt : yields (p_LocationProtocol_ConditionQuickGpsRequest rt) CV.
Proof. unfold p_LocationProtocol_ConditionQuickGpsRequest. yield. Qed.
#[global] Hint Resolve clean_p_LocationProtocol_ConditionQuickGpsRequest : clean.
Lemma clean_p_LocationProtocol_ConditionReport rt : yields (p_LocationProtocol_ConditionReport rt) CV.
Proof. unfold p_LocationProtocol_ConditionReport. yield. Qed.
#[global] Hint Resolve clean_p_LocationProtocol_ConditionReport : clean.
Lemma clean_p_LocationProtocol_EmergencyReport rt : yields (p_LocationProtocol_EmergencyReport rt) CV.
Proof. unfold p_LocationProtocol_EmergencyReport. yield. Qed.
#[global] Hint Resolve clean_p_LocationProtocol_EmergencyReport : clean.
Lemma clean_p_LocationProtocol_TriggeredReportAnswer rt : yields (p_LocationProtocol_TriggeredReportAnswer rt) CV.
Proof. unfold p_LocationProtocol_TriggeredReportAnswer. yield. Qed.
#[global] Hint Resolve clean_p_LocationProtocol_TriggeredReportAnswer : clean.
Lemma clean_p_LocationProtocol_StandardAnswerWithRssi rt : yields (p_LocationProtocol_StandardAnswerWithRssi rt) CV.
Proof. unfold p_LocationProtocol_StandardAnswerWithRssi. yield. Qed.
#[global] Hint Resolve clean_p_LocationProtocol_StandardAnswerWithRssi : clean.
Lemma clean_p_LocationProtocol_StandardRequest rt : yields (p_LocationProtocol_StandardRequest rt) CV.
Proof. unfold p_LocationProtocol_StandardRequest. yield. Qed.
#[global] Hint Resolve clean_p_LocationProtocol_StandardRequest : clean.
Lemma clean_p_LocationProtocol_TriggeredReportRequest rt : yields (p_LocationProtocol_TriggeredReportRequest rt) CV.
Proof. unfold p_LocationProtocol_TriggeredReportRequest. yield. Qed.
#[global] Hint Resolve clean_p_LocationProtocol_TriggeredReportRequest : clean.
Lemma clean_p_LocationProtocol_StandardAnswer rt : yields (p_LocationProtocol_StandardAnswer rt) CV.
Proof. unfold p_LocationProtocol_StandardAnswer. yield. Qed.
#[global] Hint Resolve clean_p_LocationProtocol_StandardAnswer : clean.
Lemma clean_p_LocationProtocol_ConditionReportAnswer rt : yields (p_LocationProtocol_ConditionReportAnswer rt) CV.
Proof. unfold p_LocationProtocol_ConditionReportAnswer. yield. Qed.
#[global] Hint Resolve clean_p_LocationProtocol_ConditionReportAnswer : clean.
Lemma clean_p_LocationProtocol_EmergencyReportStopRequest rt : yields (p_LocationProtocol_EmergencyReportStopRequest rt) CV.
Proof. unfold p_LocationProtocol_EmergencyReportStopRequest. yield. Qed.
#[global] Hint Resolve clean_p_LocationProtocol_EmergencyReportStopRequest : clean.
Lemma clean_p_LocationProtocol_ConditionQuickGpsAnswer rt : yields (p_LocationProtocol_ConditionQuickGpsAnswer rt) CV.
Proof. unfold p_LocationProtocol_ConditionQuickGpsAnswer. yield. Qed.
#[global] Hint Resolve clean_p_LocationProtocol_ConditionQuickGpsAnswer : clean.
Lemma clean_p_LocationProtocol_TriggeredReport rt : yields (p_LocationProtocol_TriggeredReport rt) CV.
Proof. unfold p_LocationProtocol_TriggeredReport. yield. Qed.
#[global] Hint Resolve clean_p_LocationProtocol_TriggeredReport : clean.
Lemma clean_p_LocationProtocol_ConditionReportWithRssi rt : yields (p_LocationProtocol_ConditionReportWithRssi rt) CV.
Proof. unfold p_LocationProtocol_ConditionReportWithRssi. yield. Qed.
#[global] Hint Resolve clean_p_LocationProtocol_ConditionReportWithRssi : clean.
Lemma clean_p_LocationProtocol_EmergencyReportStopAnswer rt : yields (p_LocationProtocol_EmergencyReportStopAnswer rt) CV.
Proof. unfold p_LocationProtocol_EmergencyReportStopAnswer. yield. Qed.
#[global] Hint Resolve clean_p_LocationProtocol_EmergencyReportStopAnswer : clean.
Lemma clean_p_LocationProtocol_TriggeredReportStopRequest rt : yields (p_LocationProtocol_TriggeredReportStopRequest rt) CV.
Proof. unfold p_LocationProtocol_TriggeredReportStopRequest. yield. Qed.
#[global] Hint Resolve clean_p_LocationProtocol_TriggeredReportStopRequest : clean.
Lemma clean_p_LocationProtocol rt : yields (p_LocationProtocol rt) CV.
Proof. unfold p_LocationProtocol. yield. Qed.
#[global] Hint Resolve clean_p_LocationProtocol : clean.
Lemma clean_p_TelemetryProtocol_StandardStatusReport rt : yields (p_TelemetryProtocol_StandardStatusReport rt) CV.
Proof. unfold p_TelemetryProtocol_StandardStatusReport. yield. Qed.
#[global] Hint Resolve clean_p_TelemetryProtocol_StandardStatusReport : clean.
Lemma clean_p_TelemetryProtocol_VioExtendedStatus rt : yields (p_TelemetryProtocol_VioExtendedStatus rt) CV.
Proof. unfold p_TelemetryProtocol_VioExtendedStatus. yield. Qed.
#[global] Hint Resolve clean_p_TelemetryProtocol_VioExtendedStatus : clean.
Lemma clean_p_TelemetryProtocol_RemoteControlAnswer rt : yields (p_TelemetryProtocol_RemoteControlAnswer rt) CV.
Proof. unfold p_TelemetryProtocol_RemoteControlAnswer. yield. Qed.
#[global] Hint Resolve clean_p_TelemetryProtocol_RemoteControlAnswer : clean.
Lemma clean_p_TelemetryProtocol_RemoteControlRequest rt : yields (p_TelemetryProtocol_RemoteControlRequest rt) CV.
Proof. unfold p_TelemetryProtocol_RemoteControlRequest. yield. Qed.
#[global] Hint Resolve clean_p_TelemetryProtocol_RemoteControlRequest : clean.
Lemma clean_p_TelemetryProtocol_ExtendedStatusReport rt : yields (p_TelemetryProtocol_ExtendedStatusReport rt) CV.
Proof. unfold p_TelemetryProtocol_ExtendedStatusReport. yield. Qed.
#[global] Hint Resolve clean_p_TelemetryProtocol_ExtendedStatusReport : clean.
Lemma clean_p_TelemetryProtocol_StandardStatusRequest rt : yields (p_TelemetryProtocol_StandardStatusRequest rt) CV.
Proof. unfold p_TelemetryProtocol_StandardStatusRequest. yield. Qed.
#[global] Hint Resolve clean_p_TelemetryProtocol_StandardStatusRequest : clean.
Lemma clean_TelemetryProtocol_specific_service rt : yields (TelemetryProtocol_specific_service rt) CV.
Proof. unfold TelemetryProtocol_specific_service. yield. Qed.
#[global] Hint Resolve clean_TelemetryProtocol_specific_service : clean.
Lemma clean_p_TelemetryProtocol rt : yields (p_TelemetryProtocol rt) CV.
Proof. unfold p_TelemetryProtocol. yield. Qed.
#[global] Hint Resolve clean_p_TelemetryProtocol : clean.
Lemma clean_p_RadioControlProtocol_BroadcastStatusConfigurationReply rt : yields (p_RadioControlProtocol_BroadcastStatusConfigurationReply rt) CV.
Proof. unfold p_RadioControlProtocol_BroadcastStatusConfigurationReply. yield. Qed.
#[global] Hint Resolve clean_p_RadioControlProtocol_BroadcastStatusConfigurationReply : clean.
Lemma clean_p_RadioControlProtocol_BroadcastConfiguration rt : yields (p_RadioControlProtocol_BroadcastConfiguration rt) CV.
Proof. unfold p_RadioControlProtocol_BroadcastConfiguration. yield. Qed.
#[global] Hint Resolve clean_p_RadioControlProtocol_BroadcastConfiguration : clean.
Lemma clean_p_RadioControlProtocol_BroadcastStatusConfigurationRequest rt : yields (p_RadioControlProtocol_BroadcastStatusConfigurationRequest rt) CV.
Proof. unfold p_RadioControlProtocol_BroadcastStatusConfigurationRequest. yield. Qed.
#[global] Hint Resolve clean_p_RadioControlProtocol_BroadcastStatusConfigurationRequest : clean.
Lemma clean_p_RadioControlProtocol_RadioIdentificationReply rt x1 : yields (p_RadioControlProtocol_RadioIdentificationReply rt x1) CV.
Proof. unfold p_RadioControlProtocol_RadioIdentificationReply. yield. Qed.
#[global] Hint Resolve clean_p_RadioControlProtocol_RadioIdentificationReply : clean.
Lemma clean_p_RadioControlProtocol_GenericData rt x1 : yields (p_RadioControlProtocol_GenericData rt x1) CV.
Proof. unfold p_RadioControlProtocol_GenericData. yield. Qed.
#[global] Hint Resolve clean_p_RadioControlProtocol_GenericData : clean.
Lemma clean_p_RadioControlProtocol_CallRequest rt : yields (p_RadioControlProtocol_CallRequest rt) CV.
Proof. unfold p_RadioControlProtocol_CallRequest. yield. Qed.
#[global] Hint Resolve clean_p_RadioControlProtocol_CallRequest : clean.
Lemma clean_p_RadioControlProtocol_RemoveRadioReply rt : yields (p_RadioControlProtocol_RemoveRadioReply rt) CV.
Proof. unfold p_RadioControlProtocol_RemoveRadioReply. yield. Qed.
#[global] Hint Resolve clean_p_RadioControlProtocol_RemoveRadioReply : clean.
Lemma clean_p_RadioControlProtocol_RemoveRadioRequest  : yields (p_RadioControlProtocol_RemoveRadioRequest ) CV.
Proof. unfold p_RadioControlProtocol_RemoveRadioRequest. yield. Qed.
#[global] Hint Resolve clean_p_RadioControlProtocol_RemoveRadioRequest : clean.
Lemma clean_p_RadioControlProtocol_CallReply rt : yields (p_RadioControlProtocol_CallReply rt) CV.
Proof. unfold p_RadioControlProtocol_CallReply. yield. Qed.
#[global] Hint Resolve clean_p_RadioControlProtocol_CallReply : clean.
Lemma clean_p_RadioControlProtocol rt : yields (p_RadioControlProtocol rt) CV.
Proof. unfold p_RadioControlProtocol. yield. Qed.
#[global] Hint Resolve clean_p_RadioControlProtocol : clean.
Lemma clean_p_HyteraDmrApplicationProtocol_UndefinedProtocol rt : yields (p_HyteraDmrApplicationProtocol_UndefinedProtocol rt) CV.
Proof. unfold p_HyteraDmrApplicationProtocol_UndefinedProtocol. yield. Qed.
#[global] Hint Resolve clean_p_HyteraDmrApplicationProtocol_UndefinedProtocol : clean.
Lemma clean_p_HyteraDmrApplicationProtocol rt : yields (p_HyteraDmrApplicationProtocol rt) CV.
Proof. unfold p_HyteraDmrApplicationProtocol. yield. Qed.
#[global] Hint Resolve clean_p_HyteraDmrApplicationProtocol : clean.
Lemma clean_p_HyteraRadioNetworkProtocol rt : yields (p_HyteraRadioNetworkProtocol rt) CV.
Proof. unfold p_HyteraRadioNetworkProtocol. yield. Qed.
#[global] Hint Resolve clean_p_HyteraRadioNetworkProtocol : clean.
Lemma clean_p_HyteraSimpleTransportReliabilityProtocol_Option rt : yields (p_HyteraSimpleTransportReliabilityProtocol_Option rt) CV.
Proof. unfold p_HyteraSimpleTransportReliabilityProtocol_Option. yield. Qed.
#[global] Hint Resolve clean_p_HyteraSimpleTransportReliabilityProtocol_Option : clean.
Lemma clean_hstrp_options rt n : yields (hstrp_options rt n) CL.
Proof. induction n as [|n IH]; cbn [hstrp_options]; [apply yields_fail|]. pose proof IH as IH'. yield. Qed.
#[global] Hint Resolve clean_hstrp_options : clean.
Lemma clean_hstrp_data rt n : yields (hstrp_data rt n) CL.
Proof. induction n as [|n IH]; cbn [hstrp_data]; [apply yields_fail|]. pose proof IH as IH'. yield. Qed.
#[global] Hint Resolve clean_hstrp_data : clean.
Lemma clean_p_HyteraSimpleTransportReliabilityProtocol rt : yields (p_HyteraSimpleTransportReliabilityProtocol rt) CV.
Proof. unfold p_HyteraSimpleTransportReliabilityProtocol. yield. Qed.
#[global] Hint Resolve clean_p_HyteraSimpleTransportReliabilityProtocol : clean.
Lemma clean_p_IpSiteConnectProtocol rt : yields (p_IpSiteConnectProtocol rt) CV.
Proof. unfold p_IpSiteConnectProtocol. yield. Qed.
#[global] Hint Resolve clean_p_IpSiteConnectProtocol : clean.
Lemma clean_p_IpSiteConnectHeartbeat_Keepalive rt : yields (p_IpSiteConnectHeartbeat_Keepalive rt) CV.
Proof. unfold p_IpSiteConnectHeartbeat_Keepalive. yield. Qed.
#[global] Hint Resolve clean_p_IpSiteConnectHeartbeat_Keepalive : clean.
Lemma clean_p_IpSiteConnectHeartbeat_PingPong rt : yields (p_IpSiteConnectHeartbeat_PingPong rt) CV.
Proof. unfold p_IpSiteConnectHeartbeat_PingPong. yield. Qed.
#[global] Hint Resolve clean_p_IpSiteConnectHeartbeat_PingPong : clean.
Lemma clean_p_IpSiteConnectHeartbeat_Unknown rt : yields (p_IpSiteConnectHeartbeat_Unknown rt) CV.
Proof. unfold p_IpSiteConnectHeartbeat_Unknown. yield. Qed.
#[global] Hint Resolve clean_p_IpSiteConnectHeartbeat_Unknown : clean.
Lemma clean_p_IpSiteConnectHeartbeat rt : yields (p_IpSiteConnectHeartbeat rt) CV.
Proof. unfold p_IpSiteConnectHeartbeat. yield. Qed.
#[global] Hint Resolve clean_p_IpSiteConnectHeartbeat : clean.
Lemma clean_p_RealTimeTransportProtocol_FixedHeader rt : yields (p_RealTimeTransportProtocol_FixedHeader rt) CV.
Proof. unfold p_RealTimeTransportProtocol_FixedHeader. yield. Qed.
#[global] Hint Resolve clean_p_RealTimeTransportProtocol_FixedHeader : clean.
Lemma clean_p_RealTimeTransportProtocol_HeaderExtension rt : yields (p_RealTimeTransportProtocol_HeaderExtension rt) CV.
Proof. unfold p_RealTimeTransportProtocol_HeaderExtension. yield. Qed.
#[global] Hint Resolve clean_p_RealTimeTransportProtocol_HeaderExtension : clean.
Lemma clean_p_RealTimeTransportProtocol rt : yields (p_RealTimeTransportProtocol rt) CV.
Proof. unfold p_RealTimeTransportProtocol, RealTimeTransportProtocol_len_padding. yield. Qed.
#[global] Hint Resolve clean_p_RealTimeTransportProtocol : clean.
Lemma clean_p_AutomaticRegistrationService_DeviceRegistrationMessageHeader  : yields (p_AutomaticRegistrationService_DeviceRegistrationMessageHeader ) CV.
Proof. unfold p_AutomaticRegistrationService_DeviceRegistrationMessageHeader. yield. Qed.
#[global] Hint Resolve clean_p_AutomaticRegistrationService_DeviceRegistrationMessageHeader : clean.
Lemma clean_p_AutomaticRegistrationService_MessageHeaderBits  : yields (p_AutomaticRegistrationService_MessageHeaderBits ) CV.
Proof. unfold p_AutomaticRegistrationService_MessageHeaderBits. yield. Qed.
#[global] Hint Resolve clean_p_AutomaticRegistrationService_MessageHeaderBits : clean.
Lemma clean_p_AutomaticRegistrationService_DeviceDeregistrationMessage  : yields (p_AutomaticRegistrationService_DeviceDeregistrationMessage ) CV.
Proof. unfold p_AutomaticRegistrationService_DeviceDeregistrationMessage. yield. Qed.
#[global] Hint Resolve clean_p_AutomaticRegistrationService_DeviceDeregistrationMessage : clean.
Lemma clean_p_AutomaticRegistrationService_DeviceRegistrationAcknowledgementFailureReason  : yields (p_AutomaticRegistrationService_DeviceRegistrationAcknowledgementFailureReason ) CV.
Proof. unfold p_AutomaticRegistrationService_DeviceRegistrationAcknowledgementFailureReason. yield. Qed.
#[global] Hint Resolve clean_p_AutomaticRegistrationService_DeviceRegistrationAcknowledgementFailureReason : clean.
Lemma clean_p_AutomaticRegistrationService_DeviceRegistrationAcknowledgementHeader  : yields (p_AutomaticRegistrationService_DeviceRegistrationAcknowledgementHeader ) CV.
Proof. unfold p_AutomaticRegistrationService_DeviceRegistrationAcknowledgementHeader. yield. Qed.
#[global] Hint Resolve clean_p_AutomaticRegistrationService_DeviceRegistrationAcknowledgementHeader : clean.
Lemma clean_p_AutomaticRegistrationService_AcknowledgementMessage x0 : yields (p_AutomaticRegistrationService_AcknowledgementMessage x0) CV.
Proof. unfold p_AutomaticRegistrationService_AcknowledgementMessage. yield. Qed.
#[global] Hint Resolve clean_p_AutomaticRegistrationService_AcknowledgementMessage : clean.
Lemma clean_p_AutomaticRegistrationService_DeviceRegistrationMessage rt x1 : yields (p_AutomaticRegistrationService_DeviceRegistrationMessage rt x1) CV.
Proof. unfold p_AutomaticRegistrationService_DeviceRegistrationMessage. yield. Qed.
#[global] Hint Resolve clean_p_AutomaticRegistrationService_DeviceRegistrationMessage : clean.
Lemma clean_p_AutomaticRegistrationService_ArsQueryMessage  : yields (p_AutomaticRegistrationService_ArsQueryMessage ) CV.
Proof. unfold p_AutomaticRegistrationService_ArsQueryMessage. yield. Qed.
#[global] Hint Resolve clean_p_AutomaticRegistrationService_ArsQueryMessage : clean.
Lemma clean_p_AutomaticRegistrationService rt : yields (p_AutomaticRegistrationService rt) CV.
Proof. unfold p_AutomaticRegistrationService. yield. Qed.
#[global] Hint Resolve clean_p_AutomaticRegistrationService : clean.
Lemma clean_p_MotTextMessageProtocol_TextMessageHeaderSequenceAndEncoding  : yields (p_MotTextMessageProtocol_TextMessageHeaderSequenceAndEncoding ) CV.
Proof. unfold p_MotTextMessageProtocol_TextMessageHeaderSequenceAndEncoding. yield. Qed.
#[global] Hint Resolve clean_p_MotTextMessageProtocol_TextMessageHeaderSequenceAndEncoding : clean.
Lemma clean_p_MotTextMessageProtocol_TextMessage rt x1 : yields (p_MotTextMessageProtocol_TextMessage rt x1) CV.
Proof. unfold p_MotTextMessageProtocol_TextMessage. yield. Qed.
#[global] Hint Resolve clean_p_MotTextMessageProtocol_TextMessage : clean.
Lemma clean_p_MotTextMessageProtocol_TmsServiceAvailabilityHeader  : yields (p_MotTextMessageProtocol_TmsServiceAvailabilityHeader ) CV.
Proof. unfold p_MotTextMessageProtocol_TmsServiceAvailabilityHeader. yield. Qed.
#[global] Hint Resolve clean_p_MotTextMessageProtocol_TmsServiceAvailabilityHeader : clean.
Lemma clean_p_MotTextMessageProtocol_TmsServiceAvailability x0 : yields (p_MotTextMessageProtocol_TmsServiceAvailability x0) CV.
Proof. unfold p_MotTextMessageProtocol_TmsServiceAvailability. yield. Qed.
#[global] Hint Resolve clean_p_MotTextMessageProtocol_TmsServiceAvailability : clean.
Lemma clean_p_MotTextMessageProtocol_MessageHeaderBits  : yields (p_MotTextMessageProtocol_MessageHeaderBits ) CV.
Proof. unfold p_MotTextMessageProtocol_MessageHeaderBits. yield. Qed.
#[global] Hint Resolve clean_p_MotTextMessageProtocol_MessageHeaderBits : clean.
Lemma clean_p_MotTextMessageProtocol_TmsAcknowledgementHeaderSequenceNumber  : yields (p_MotTextMessageProtocol_TmsAcknowledgementHeaderSequenceNumber ) CV.
Proof. unfold p_MotTextMessageProtocol_TmsAcknowledgementHeaderSequenceNumber. yield. Qed.
#[global] Hint Resolve clean_p_MotTextMessageProtocol_TmsAcknowledgementHeaderSequenceNumber : clean.
Lemma clean_p_MotTextMessageProtocol_TmsAcknowledgement x0 : yields (p_MotTextMessageProtocol_TmsAcknowledgement x0) CV.
Proof. unfold p_MotTextMessageProtocol_TmsAcknowledgement. yield. Qed.
#[global] Hint Resolve clean_p_MotTextMessageProtocol_TmsAcknowledgement : clean.
Lemma clean_p_MotTextMessageProtocol_TmsServiceAvailabilityAcknowledgement  : yields (p_MotTextMessageProtocol_TmsServiceAvailabilityAcknowledgement ) CV.
Proof. unfold p_MotTextMessageProtocol_TmsServiceAvailabilityAcknowledgement. yield. Qed.
#[global] Hint Resolve clean_p_MotTextMessageProtocol_TmsServiceAvailabilityAcknowledgement : clean.
Lemma clean_p_MotTextMessageProtocol rt : yields (p_MotTextMessageProtocol rt) CV.
Proof. unfold p_MotTextMessageProtocol. yield. Qed.
#[global] Hint Resolve clean_p_MotTextMessageProtocol : clean.
Lemma clean_p_MotorolaBinaryXml_OpaqueElementValue rt : yields (p_MotorolaBinaryXml_OpaqueElementValue rt) CV.
Proof. unfold p_MotorolaBinaryXml_OpaqueElementValue. yield. Qed.
#[global] Hint Resolve clean_p_MotorolaBinaryXml_OpaqueElementValue : clean.
Lemma clean_p_MotorolaBinaryXml_Opaque1byteValue rt : yields (p_MotorolaBinaryXml_Opaque1byteValue rt) CV.
Proof. unfold p_MotorolaBinaryXml_Opaque1byteValue. yield. Qed.
#[global] Hint Resolve clean_p_MotorolaBinaryXml_Opaque1byteValue : clean.
Lemma clean_p_MotorolaBinaryXml_Opaque2byteValue rt : yields (p_MotorolaBinaryXml_Opaque2byteValue rt) CV.
Proof. unfold p_MotorolaBinaryXml_Opaque2byteValue. yield. Qed.
#[global] Hint Resolve clean_p_MotorolaBinaryXml_Opaque2byteValue : clean.
Lemma clean_p_MotorolaBinaryXml_Opaque3byteValue rt : yields (p_MotorolaBinaryXml_Opaque3byteValue rt) CV.
Proof. unfold p_MotorolaBinaryXml_Opaque3byteValue. yield. Qed.
#[global] Hint Resolve clean_p_MotorolaBinaryXml_Opaque3byteValue : clean.
Lemma clean_p_MotorolaBinaryXml_Opaque4byteValue rt : yields (p_MotorolaBinaryXml_Opaque4byteValue rt) CV.
Proof. unfold p_MotorolaBinaryXml_Opaque4byteValue. yield. Qed.
#[global] Hint Resolve clean_p_MotorolaBinaryXml_Opaque4byteValue : clean.
Lemma clean_p_MotorolaBinaryXml_Opaque5byteValue rt : yields (p_MotorolaBinaryXml_Opaque5byteValue rt) CV.
Proof. unfold p_MotorolaBinaryXml_Opaque5byteValue. yield. Qed.
#[global] Hint Resolve clean_p_MotorolaBinaryXml_Opaque5byteValue : clean.
Lemma clean_var_payload rt n : yields (var_payload rt n) CL.
Proof. induction n as [|n IH]; cbn [var_payload]; [apply yields_fail|]. pose proof IH as IH'. yield. Qed.
#[global] Hint Resolve clean_var_payload : clean.
Lemma clean_p_MotorolaBinaryXml_Uintvar rt : yields (p_MotorolaBinaryXml_Uintvar rt) CV.
Proof. unfold p_MotorolaBinaryXml_Uintvar. yield. Qed.
#[global] Hint Resolve clean_p_MotorolaBinaryXml_Uintvar : clean.
Lemma clean_p_MotorolaBinaryXml_Sintvar rt : yields (p_MotorolaBinaryXml_Sintvar rt) CV.
Proof. unfold p_MotorolaBinaryXml_Sintvar. yield. Qed.
#[global] Hint Resolve clean_p_MotorolaBinaryXml_Sintvar : clean.
Lemma clean_p_MotorolaBinaryXml_ConstantDataTableReference rt : yields (p_MotorolaBinaryXml_ConstantDataTableReference rt) CV.
Proof. unfold p_MotorolaBinaryXml_ConstantDataTableReference. yield. Qed.
#[global] Hint Resolve clean_p_MotorolaBinaryXml_ConstantDataTableReference : clean.
Lemma clean_p_MotorolaBinaryXml_LrrpElement rt : yields (p_MotorolaBinaryXml_LrrpElement rt) CV.
Proof. unfold p_MotorolaBinaryXml_LrrpElement. yield. Qed.
#[global] Hint Resolve clean_p_MotorolaBinaryXml_LrrpElement : clean.
Lemma clean_p_MotorolaBinaryXml_LrrpImmediateRequestNcdt rt : yields (p_MotorolaBinaryXml_LrrpImmediateRequestNcdt rt) CV.
Proof. unfold p_MotorolaBinaryXml_LrrpImmediateRequestNcdt. yield. Qed.
#[global] Hint Resolve clean_p_MotorolaBinaryXml_LrrpImmediateRequestNcdt : clean.
Lemma clean_p_MotorolaBinaryXml_Sfloatvar rt : yields (p_MotorolaBinaryXml_Sfloatvar rt) CV.
Proof. unfold p_MotorolaBinaryXml_Sfloatvar. yield. Qed.
#[global] Hint Resolve clean_p_MotorolaBinaryXml_Sfloatvar : clean.
Lemma clean_p_MotorolaBinaryXml_Ufloatvar rt : yields (p_MotorolaBinaryXml_Ufloatvar rt) CV.
Proof. unfold p_MotorolaBinaryXml_Ufloatvar. yield. Qed.
#[global] Hint Resolve clean_p_MotorolaBinaryXml_Ufloatvar : clean.
Lemma clean_p_MotorolaBinaryXml_MbxmlDocument rt : yields (p_MotorolaBinaryXml_MbxmlDocument rt) CV.
Proof. unfold p_MotorolaBinaryXml_MbxmlDocument. yield. Qed.
#[global] Hint Resolve clean_p_MotorolaBinaryXml_MbxmlDocument : clean.
Lemma clean_mbxml_documents rt n : yields (mbxml_documents rt n) CL.
Proof. induction n as [|n IH]; cbn [mbxml_documents]; [apply yields_fail|]. pose proof IH as IH'. yield. Qed.
#[global] Hint Resolve clean_mbxml_documents : clean.
Lemma clean_p_MotorolaBinaryXml rt : yields (p_MotorolaBinaryXml rt) CV.
Proof. unfold p_MotorolaBinaryXml. yield. Qed.
#[global] Hint Resolve clean_p_MotorolaBinaryXml : clean.
