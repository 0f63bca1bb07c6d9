(** Parsers for which EOFError means "the packet is not complete yet": a packet cut inside the bytes the
    parser consumes gives EOFError, every longer part of it the same result, and every other exception stays
    the same when bytes are appended.  (Support for C56.) *)
From Verif Require Import PyBase Runtime Codec Enums Getters EtsiModel HomebrewModel HyteraModel MotorolaModel AllParsers StableProofs.
Open Scope string_scope.
Open Scope list_scope.
Open Scope Z_scope.

(** the same stream over the first [k] bytes of the buffer *)
Definition cut (s : stream) (k : nat) : stream :=
  {| s_buf := firstn k (s_buf s); s_pos := s_pos s; s_bits := s_bits s; s_left := s_left s |}.

Definition incremental_from (lo : nat) {A} (m : M A) : Prop := forall s, (lo <= s_pos s <= List.length (s_buf s))%nat ->
  match m s with
  | (Ok a, s') => s_buf s' = s_buf s /\ (s_pos s <= s_pos s' <= List.length (s_buf s))%nat /\
      (forall t, m (extend s t) = (Ok a, extend s' t)) /\
      (forall k, (s_pos s' <= k)%nat -> m (cut s k) = (Ok a, cut s' k)) /\
      (forall k, (s_pos s <= k < s_pos s')%nat -> fst (m (cut s k)) = Err EOFError)
  | (Err e, _) => e <> EOFError -> forall t, fst (m (extend s t)) = Err e
  end.
Definition incremental {A} (m : M A) : Prop := incremental_from 0 m.

Lemma ic_mono lo {A} (m : M A) : incremental m -> incremental_from lo m.
Proof. intros H s Hs. apply H. lia. Qed.
(** parsers that do not touch the stream position or buffer *)
Lemma ic_ret_at lo {A} (a : A) : incremental_from lo (ret a).
Proof.
  intros s Hs. unfold ret. cbv beta iota. split; [reflexivity|]. split; [lia|]. split; [reflexivity|]. split; [reflexivity|]. intros k Hk. lia.
Qed.
Lemma ic_ret {A} (a : A) : incremental (ret a). Proof. apply ic_ret_at. Qed.
Lemma ic_fail {A} e : incremental (@fail A e).
Proof. intros s Hs. unfold fail. reflexivity. Qed.
Lemma ic_lift {A} (r : res A) : incremental (lift r).
Proof. intros s Hs. unfold lift. destruct r as [a|e]; [apply (ic_ret a s Hs)|]. reflexivity. Qed.
Lemma ic_bind_far lo d {A B} (m : M A) (k : A -> M B) : incremental_from lo m ->
  (forall s a s', m s = (Ok a, s') -> (s_pos s + d <= s_pos s')%nat) ->
  (forall a, incremental_from (lo + d) (k a)) -> incremental_from lo (bind m k).
Proof.
  intros H1 Ha H2 s Hs. unfold bind. specialize (H1 s Hs). destruct (m s) as [[a|e] s1] eqn:Em.
  - destruct H1 as [B1 [P1 [X1 [K1 E1]]]]. specialize (Ha _ _ _ Em). specialize (H2 a s1). rewrite B1 in H2. assert (Hs1 : (lo + d <= s_pos s1 <= List.length (s_buf s))%nat) by lia. specialize (H2 Hs1).
    destruct (k a s1) as [[b|e] s2].
    + destruct H2 as [B2 [P2 [X2 [K2 E2]]]]. split; [congruence|]. split; [lia|]. split; [|split].
      * intros t. rewrite X1. apply X2.
      * intros n Hn. rewrite (K1 n) by lia. apply K2. lia.
      * intros n Hn. destruct (Nat.lt_ge_cases n (s_pos s1)) as [L|L].
        -- specialize (E1 n (conj (proj1 Hn) L)). destruct (m (cut s n)) as [[x|e] s3]; [discriminate|]. cbn [fst] in *. congruence.
        -- rewrite (K1 n L). apply E2. lia.
    + intros He t. rewrite X1. now apply H2.
  - intros He t. specialize (H1 He t). destruct (m (extend s t)) as [[x|e'] s3]; [discriminate|]. cbn [fst] in *. congruence.
Qed.
Lemma ic_bind_at lo {A B} (m : M A) (k : A -> M B) : incremental_from lo m -> (forall a, incremental_from lo (k a)) -> incremental_from lo (bind m k).
Proof.
  intros H1 H2 s Hs. unfold bind. specialize (H1 s Hs). destruct (m s) as [[a|e] s1] eqn:Em.
  - destruct H1 as [B1 [P1 [X1 [K1 E1]]]]. specialize (H2 a s1). rewrite B1 in H2. assert (Hs1 : (lo <= s_pos s1 <= List.length (s_buf s))%nat) by lia. specialize (H2 Hs1).
    destruct (k a s1) as [[b|e] s2].
    + destruct H2 as [B2 [P2 [X2 [K2 E2]]]]. split; [congruence|]. split; [lia|]. split; [|split].
      * intros t. rewrite X1. apply X2.
      * intros n Hn. rewrite (K1 n) by lia. apply K2. lia.
      * intros n Hn. destruct (Nat.lt_ge_cases n (s_pos s1)) as [L|L].
        -- specialize (E1 n (conj (proj1 Hn) L)). destruct (m (cut s n)) as [[x|e] s3]; [discriminate|]. cbn [fst] in *. congruence.
        -- rewrite (K1 n L). apply E2. lia.
    + intros He t. rewrite X1. now apply H2.
  - intros He t. specialize (H1 He t). destruct (m (extend s t)) as [[x|e'] s3]; [discriminate|]. cbn [fst] in *. congruence.
Qed.
Lemma ic_bind {A B} (m : M A) (k : A -> M B) : incremental m -> (forall a, incremental (k a)) -> incremental (bind m k).
Proof. apply ic_bind_at. Qed.
Lemma ic_align : incremental align_to_byte.
Proof. intros s Hs. unfold align_to_byte. split; [reflexivity|]. split; [cbn [align_state s_pos]; lia|]. split; [reflexivity|]. split; [reflexivity|]. cbn [align_state s_pos]. intros k Hk. lia. Qed.

(** reading [n] bytes, in closed form *)
Lemma raw_spec n s : 0 <= n -> (s_pos s <= List.length (s_buf s))%nat ->
  raw_read_bytes n s = if (s_pos s + Z.to_nat n <=? List.length (s_buf s))%nat
    then (Ok (firstn (Z.to_nat n) (skipn (s_pos s) (s_buf s))), set_pos s (s_pos s + Z.to_nat n))
    else (Err EOFError, set_pos s (List.length (s_buf s))).
Proof.
  intros Hn Hs. unfold raw_read_bytes. destruct (Z.ltb_spec n 0); [lia|]. unfold io_read. cbv beta iota zeta.
  set (rest := skipn (s_pos s) (s_buf s)). assert (Hr : List.length rest = (List.length (s_buf s) - s_pos s)%nat) by apply skipn_length.
  destruct (Nat.leb_spec (s_pos s + Z.to_nat n) (List.length (s_buf s))).
  - assert (E : (if blen rest <=? n then rest else firstn (Z.to_nat n) rest) = firstn (Z.to_nat n) rest).
    { destruct (Z.leb_spec (blen rest) n); [|reflexivity]. unfold blen in *. symmetry. apply firstn_all2. lia. }
    rewrite E. assert (L : List.length (firstn (Z.to_nat n) rest) = Z.to_nat n) by (rewrite firstn_length; lia).
    unfold blen at 1. rewrite L. destruct (Z.ltb_spec (Z.of_nat (Z.to_nat n)) n); [lia|]. reflexivity.
  - assert (E : (if blen rest <=? n then rest else firstn (Z.to_nat n) rest) = rest).
    { destruct (Z.leb_spec (blen rest) n); [reflexivity|]. unfold blen in *. lia. }
    rewrite E. destruct (Z.ltb_spec (blen rest) n); [|unfold blen in *; lia]. f_equal. f_equal. lia.
Qed.
Lemma firstn_skipn_firstn {A} (l : list A) p n k : (p + n <= k)%nat -> firstn n (skipn p (firstn k l)) = firstn n (skipn p l).
Proof. intros H. rewrite skipn_firstn_comm, firstn_firstn. f_equal. lia. Qed.
Lemma firstn_skipn_app {A} (l t : list A) p n : (p + n <= List.length l)%nat -> firstn n (skipn p (l ++ t)) = firstn n (skipn p l).
Proof.
  intros H. rewrite skipn_app, firstn_app, skipn_length. replace (n - (List.length l - p))%nat with 0%nat by lia. cbn [firstn]. apply app_nil_r.
Qed.
Lemma ic_raw n : incremental (raw_read_bytes n).
Proof.
  intros s Hs. destruct (Z.ltb_spec n 0) as [Hn|Hn].
  { assert (R : forall u, raw_read_bytes n u = (Err ValueError, u)) by (intros u; unfold raw_read_bytes; destruct (Z.ltb_spec n 0); [reflexivity|lia]).
    rewrite R. intros _ t. now rewrite R. }
  rewrite raw_spec by lia. destruct (Nat.leb_spec (s_pos s + Z.to_nat n) (List.length (s_buf s))) as [L|L]; [|intros X; now destruct X].
  cbn [set_pos s_buf s_pos]. split; [reflexivity|]. split; [lia|]. split; [|split].
  - intros t. rewrite raw_spec; [|lia|cbn [extend s_pos s_buf]; rewrite app_length; lia]. cbn [extend s_pos s_buf]. rewrite app_length.
    destruct (Nat.leb_spec (s_pos s + Z.to_nat n) (List.length (s_buf s) + List.length t)); [|lia]. rewrite firstn_skipn_app by lia. reflexivity.
  - intros k Hk. rewrite raw_spec; [|lia|cbn [cut s_pos s_buf]; rewrite firstn_length; lia]. cbn [cut s_pos s_buf]. rewrite firstn_length.
    destruct (Nat.leb_spec (s_pos s + Z.to_nat n) (Nat.min k (List.length (s_buf s)))); [|lia]. rewrite firstn_skipn_firstn by lia. reflexivity.
  - intros k Hk. rewrite raw_spec; [|lia|cbn [cut s_pos s_buf]; rewrite firstn_length; lia]. cbn [cut s_pos s_buf]. rewrite firstn_length.
    destruct (Nat.leb_spec (s_pos s + Z.to_nat n) (Nat.min k (List.length (s_buf s)))); [lia|]. reflexivity.
Qed.
Lemma ic_bytes rt n : incremental (read_bytes rt n).
Proof.
  intros s Hs. unfold read_bytes. pose proof (ic_raw n (auto_align rt s)) as H. destruct rt; cbn [auto_align] in *; exact (H Hs).
Qed.
Lemma ic_bits n : incremental (read_bits n).
Proof.
  intros s Hs. unfold read_bits. cbn [s_left s_pos s_bits s_buf extend cut]. cbv zeta. destruct (0 <? n - s_left s).
  - set (s1 := {| s_buf := s_buf s; s_pos := s_pos s; s_bits := s_bits s; s_left := (- (n - s_left s)) mod 8 |}).
    pose proof (ic_raw ((n - s_left s - 1) / 8 + 1) s1 Hs) as H. destruct (raw_read_bytes ((n - s_left s - 1) / 8 + 1) s1) as [[y|e] s2].
    + destruct H as [B1 [P1 [X1 [K1 E1]]]]. cbn [s_buf s_pos s1] in *. split; [exact B1|]. split; [exact P1|]. split; [|split].
      * intros t. change {| s_buf := s_buf s ++ t; s_pos := s_pos s; s_bits := s_bits s; s_left := (- (n - s_left s)) mod 8 |} with (extend s1 t). rewrite X1. reflexivity.
      * intros k Hk. change {| s_buf := firstn k (s_buf s); s_pos := s_pos s; s_bits := s_bits s; s_left := (- (n - s_left s)) mod 8 |} with (cut s1 k). rewrite (K1 k Hk). reflexivity.
      * intros k Hk. change {| s_buf := firstn k (s_buf s); s_pos := s_pos s; s_bits := s_bits s; s_left := (- (n - s_left s)) mod 8 |} with (cut s1 k).
        specialize (E1 k Hk). destruct (raw_read_bytes ((n - s_left s - 1) / 8 + 1) (cut s1 k)) as [[z|e] s3]; [discriminate|]. cbn [fst] in *. congruence.
    + intros He t. change {| s_buf := s_buf s ++ t; s_pos := s_pos s; s_bits := s_bits s; s_left := (- (n - s_left s)) mod 8 |} with (extend s1 t). specialize (H He t).
      destruct (raw_read_bytes ((n - s_left s - 1) / 8 + 1) (extend s1 t)) as [[z|e'] s3]; [discriminate|]. cbn [fst] in *. congruence.
  - cbn [s_pos s_buf]. split; [reflexivity|]. split; [lia|]. split; [reflexivity|]. split; [reflexivity|]. intros k Hk. lia.
Qed.

Create HintDb icd discriminated.
#[global] Hint Constants Opaque : icd.
#[global] Hint Variables Opaque : icd.
Ltac ic := repeat match goal with
  | |- incremental (bind _ _) => apply ic_bind; [|intros ?]
  | |- incremental (if ?c then _ else _) => destruct c
  | |- incremental (match ?c with _ => _ end) => destruct c
  | |- incremental (ret _) => apply ic_ret
  | |- incremental (fail _) => apply ic_fail
  | |- incremental (lift _) => apply ic_lift
  | |- incremental (obj _ _) => unfold obj; cbn [seq]
  | |- incremental _ => solve [auto 6 with icd]
  end.
Lemma ic_u1 rt : incremental (read_u1 rt). Proof. apply ic_bind; [apply ic_bytes|intros; apply ic_ret]. Qed.
Lemma ic_u2be rt : incremental (read_u2be rt). Proof. apply ic_bind; [apply ic_bytes|intros; apply ic_ret]. Qed.
Lemma ic_u4be rt : incremental (read_u4be rt). Proof. apply ic_bind; [apply ic_bytes|intros; apply ic_ret]. Qed.
Lemma ic_u2le rt : incremental (read_u2le rt). Proof. apply ic_bind; [apply ic_bytes|intros; apply ic_ret]. Qed.
Lemma ic_u4le rt : incremental (read_u4le rt). Proof. apply ic_bind; [apply ic_bytes|intros; apply ic_ret]. Qed.
Lemma ic_s2be rt : incremental (read_s2be rt). Proof. apply ic_bind; [apply ic_bytes|intros; apply ic_ret]. Qed.
Lemma ic_flag : incremental read_flag. Proof. apply ic_bind; [apply ic_bits|intros; apply ic_ret]. Qed.
Lemma ic_vint m : incremental m -> incremental (vint m). Proof. intros H. apply ic_bind; [exact H|intros; apply ic_ret]. Qed.
Lemma ic_vbits n : incremental (vbits n). Proof. apply ic_vint, ic_bits. Qed.
Lemma ic_vflag : incremental vflag. Proof. apply ic_bind; [apply ic_flag|intros; apply ic_ret]. Qed.
Lemma ic_venum E m : incremental m -> incremental (venum E m). Proof. intros H. apply ic_bind; [exact H|intros; apply ic_ret]. Qed.
Lemma ic_vbytes rt n : incremental (vbytes rt n). Proof. apply ic_bind; [apply ic_bytes|intros; apply ic_ret]. Qed.
Lemma ic_str rt e n : incremental (read_str rt e n).
Proof. unfold read_str. apply ic_bind; [apply ic_bytes|intros; apply ic_lift]. Qed.
Lemma ic_vstr rt e n : incremental (vstr rt e n).
Proof. unfold vstr. apply ic_bind; [|intros; apply ic_ret]. unfold read_str. apply ic_bind; [apply ic_bytes|intros; apply ic_lift]. Qed.
Lemma ic_expect rt l p : incremental (expect_bytes rt l p).
Proof. apply ic_bind; [apply ic_bytes|]. intros x. destruct (bytes_eqb x l); [apply ic_ret|apply ic_fail]. Qed.
Lemma ic_aligned {A} (m : M A) : incremental m -> incremental (aligned m). Proof. intros H. apply ic_bind; [apply ic_align|intros; exact H]. Qed.
Lemma ic_some {A} (m : M A) : incremental m -> incremental (some m). Proof. intros H. apply ic_bind; [exact H|intros; apply ic_ret]. Qed.
Lemma ic_none {A} : incremental (@none A). Proof. apply ic_ret. Qed.
Lemma ic_repeat n m : incremental m -> incremental (repeat_n n m).
Proof. intros H. induction n as [|n IH]; cbn [repeat_n]; [apply ic_ret|]. apply ic_bind; [exact H|intros v]. apply ic_bind; [exact IH|intros l]. apply ic_ret. Qed.
Lemma ic_range n m : incremental m -> incremental (for_range n m). Proof. apply ic_repeat. Qed.
Lemma ic_enum_value v : incremental (enum_value v). Proof. destruct v; (apply ic_ret || apply ic_fail). Qed.
Lemma ic_needed {A} x (v : option A) : incremental (needed x v). Proof. destruct v; (apply ic_ret || apply ic_fail). Qed.
Lemma ic_stored n a : incremental (stored n a). Proof. unfold stored. destruct (lookup n a); (apply ic_ret || apply ic_fail || apply ic_lift). Qed.
#[global] Hint Resolve ic_align ic_bytes ic_bits ic_u1 ic_u2be ic_u4be ic_u2le ic_u4le ic_s2be ic_flag ic_vint ic_vbits ic_vflag ic_venum ic_vbytes ic_str ic_vstr ic_expect ic_aligned ic_some ic_none ic_range ic_enum_value ic_needed ic_stored : icd.


(** the look-ahead of the telemetry protocol: it reads bytes 0 and 1 and returns, which succeeds wherever at least two
    bytes have been read *)
Lemma adv_bytes rt n s a s' : 0 <= n -> read_bytes rt n s = (Ok a, s') -> (s_pos s + Z.to_nat n <= s_pos s')%nat.
Proof.
  intros Hn. unfold read_bytes, raw_read_bytes. destruct (Z.ltb_spec n 0); [lia|]. unfold io_read. cbv beta iota zeta.
  set (g := if _ <=? n then _ else _). destruct (Z.ltb_spec (blen g) n) as [|L]; [discriminate|]. intros E. injection E as <- <-.
  destruct rt; cbn [auto_align align_state set_pos s_pos] in *; unfold blen in L; lia.
Qed.
Lemma adv_u1 rt s a s' : read_u1 rt s = (Ok a, s') -> (s_pos s + 1 <= s_pos s')%nat.
Proof.
  unfold read_u1, bind. destruct (read_bytes rt 1 s) as [[x|e] s1] eqn:E; [|discriminate]. intros H. unfold ret in H. assert (s1 = s') by congruence. subst.
  apply (adv_bytes rt 1) in E; [|lia]. exact E.
Qed.
Lemma adv_venum_u1 rt E s a s' : venum E (read_u1 rt) s = (Ok a, s') -> (s_pos s + 1 <= s_pos s')%nat.
Proof.
  unfold venum, bind. destruct (read_u1 rt s) as [[x|e] s1] eqn:R; [|discriminate]. intros H. unfold ret in H. assert (s1 = s') by congruence. subst.
  now apply adv_u1 in R.
Qed.
Lemma ic_specific_service rt : incremental_from 2 (TelemetryProtocol_specific_service rt).
Proof.
  intros s Hs.
  assert (R : forall u, s_pos u = s_pos s -> (2 <= List.length (s_buf u))%nat ->
    TelemetryProtocol_specific_service rt u = (Ok (resolve_enum TelemetryProtocol_ServiceSpecificTypes (be_int (firstn 2 (s_buf u)))), set_pos (auto_align rt u) (s_pos s))).
  { intros u Hp Hl. unfold TelemetryProtocol_specific_service, bind, io_pos, io_seek. unfold venum, bind, read_u2be, bind, read_bytes.
    rewrite raw_spec by (destruct rt; cbn [auto_align align_state set_pos s_pos s_buf Z.to_nat]; lia).
    replace (List.length (s_buf (auto_align rt (set_pos (auto_align rt u) (Z.to_nat 0))))) with (List.length (s_buf u)) by (destruct rt; reflexivity).
    replace (s_pos (auto_align rt (set_pos (auto_align rt u) (Z.to_nat 0))) + Z.to_nat 2)%nat with 2%nat by (destruct rt; reflexivity).
    destruct (Nat.leb_spec 2 (List.length (s_buf u))); [|lia]. unfold ret. rewrite Nat2Z.id, Hp.
    destruct rt; cbn [auto_align align_state set_pos s_pos s_buf Z.to_nat skipn]; reflexivity. }
  rewrite R by lia. replace (s_buf (set_pos (auto_align rt s) (s_pos s))) with (s_buf s) by (destruct rt; reflexivity).
  replace (s_pos (set_pos (auto_align rt s) (s_pos s))) with (s_pos s) by reflexivity.
  split; [reflexivity|]. split; [lia|]. split; [|split].
  - intros t. rewrite R by (cbn [extend s_pos s_buf]; rewrite ?app_length; lia). cbn [extend s_buf]. pose proof (firstn_skipn_app (s_buf s) t 0 2 ltac:(lia)) as Q; cbn [skipn] in Q; rewrite Q. destruct rt; reflexivity.
  - intros k Hk. rewrite R by (cbn [cut s_pos s_buf]; rewrite ?firstn_length; lia). cbn [cut s_buf]. pose proof (firstn_skipn_firstn (s_buf s) 0 2 k ltac:(lia)) as Q; cbn [skipn] in Q; rewrite Q. destruct rt; reflexivity.
  - intros k Hk. lia.
Qed.

Lemma ic_p_DmrCsbk_NegativeAckResponseData  : incremental (p_DmrCsbk_NegativeAckResponseData ).
Proof. unfold p_DmrCsbk_NegativeAckResponseData. ic. Qed.
#[global] Hint Resolve ic_p_DmrCsbk_NegativeAckResponseData : icd.
Lemma ic_p_DmrCsbk_ServiceOptions  : incremental (p_DmrCsbk_ServiceOptions ).
Proof. unfold p_DmrCsbk_ServiceOptions. ic. Qed.
#[global] Hint Resolve ic_p_DmrCsbk_ServiceOptions : icd.
Lemma ic_p_DmrCsbk_UnitToUnitVoiceRequestData  : incremental (p_DmrCsbk_UnitToUnitVoiceRequestData ).
Proof. unfold p_DmrCsbk_UnitToUnitVoiceRequestData. ic. Qed.
#[global] Hint Resolve ic_p_DmrCsbk_UnitToUnitVoiceRequestData : icd.
Lemma ic_p_DmrCsbk_PreambleData  : incremental (p_DmrCsbk_PreambleData ).
Proof. unfold p_DmrCsbk_PreambleData. ic. Qed.
#[global] Hint Resolve ic_p_DmrCsbk_PreambleData : icd.
Lemma ic_p_DmrCsbk_ChannelTimingData  : incremental (p_DmrCsbk_ChannelTimingData ).
Proof. unfold p_DmrCsbk_ChannelTimingData. ic. Qed.
#[global] Hint Resolve ic_p_DmrCsbk_ChannelTimingData : icd.
Lemma ic_p_DmrCsbk_BsOutboundActivationData  : incremental (p_DmrCsbk_BsOutboundActivationData ).
Proof. unfold p_DmrCsbk_BsOutboundActivationData. ic. Qed.
#[global] Hint Resolve ic_p_DmrCsbk_BsOutboundActivationData : icd.
Lemma ic_p_DmrCsbk_UnitToUnitVoiceAnswerData  : incremental (p_DmrCsbk_UnitToUnitVoiceAnswerData ).
Proof. unfold p_DmrCsbk_UnitToUnitVoiceAnswerData. ic. Qed.
#[global] Hint Resolve ic_p_DmrCsbk_UnitToUnitVoiceAnswerData : icd.
Lemma ic_p_DmrCsbk  : incremental (p_DmrCsbk ).
Proof. unfold p_DmrCsbk. ic. Qed.
#[global] Hint Resolve ic_p_DmrCsbk : icd.
Lemma ic_p_DmrData_Rate1LastBlockUnconfirmed rt : incremental (p_DmrData_Rate1LastBlockUnconfirmed rt).
Proof. unfold p_DmrData_Rate1LastBlockUnconfirmed. ic. Qed.
#[global] Hint Resolve ic_p_DmrData_Rate1LastBlockUnconfirmed : icd.
Lemma ic_p_DmrData_Rate12LastBlockConfirmed rt : incremental (p_DmrData_Rate12LastBlockConfirmed rt).
Proof. unfold p_DmrData_Rate12LastBlockConfirmed. ic. Qed.
#[global] Hint Resolve ic_p_DmrData_Rate12LastBlockConfirmed : icd.
Lemma ic_p_DmrData_Rate12Confirmed rt : incremental (p_DmrData_Rate12Confirmed rt).
Proof. unfold p_DmrData_Rate12Confirmed. ic. Qed.
#[global] Hint Resolve ic_p_DmrData_Rate12Confirmed : icd.
Lemma ic_p_DmrData_Rate34LastBlockUnconfirmed rt : incremental (p_DmrData_Rate34LastBlockUnconfirmed rt).
Proof. unfold p_DmrData_Rate34LastBlockUnconfirmed. ic. Qed.
#[global] Hint Resolve ic_p_DmrData_Rate34LastBlockUnconfirmed : icd.
Lemma ic_p_DmrData_Rate1LastBlockConfirmed rt : incremental (p_DmrData_Rate1LastBlockConfirmed rt).
Proof. unfold p_DmrData_Rate1LastBlockConfirmed. ic. Qed.
#[global] Hint Resolve ic_p_DmrData_Rate1LastBlockConfirmed : icd.
Lemma ic_p_DmrData_Rate1Unconfirmed rt : incremental (p_DmrData_Rate1Unconfirmed rt).
Proof. unfold p_DmrData_Rate1Unconfirmed. ic. Qed.
#[global] Hint Resolve ic_p_DmrData_Rate1Unconfirmed : icd.
Lemma ic_p_DmrData_UdtLastBlock rt : incremental (p_DmrData_UdtLastBlock rt).
Proof. unfold p_DmrData_UdtLastBlock. ic. Qed.
#[global] Hint Resolve ic_p_DmrData_UdtLastBlock : icd.
Lemma ic_p_DmrData_Rate34Confirmed rt : incremental (p_DmrData_Rate34Confirmed rt).
Proof. unfold p_DmrData_Rate34Confirmed. ic. Qed.
#[global] Hint Resolve ic_p_DmrData_Rate34Confirmed : icd.
Lemma ic_p_DmrData_Rate34LastBlockConfirmed rt : incremental (p_DmrData_Rate34LastBlockConfirmed rt).
Proof. unfold p_DmrData_Rate34LastBlockConfirmed. ic. Qed.
#[global] Hint Resolve ic_p_DmrData_Rate34LastBlockConfirmed : icd.
Lemma ic_p_DmrData_Rate34Unconfirmed rt : incremental (p_DmrData_Rate34Unconfirmed rt).
Proof. unfold p_DmrData_Rate34Unconfirmed. ic. Qed.
#[global] Hint Resolve ic_p_DmrData_Rate34Unconfirmed : icd.
Lemma ic_p_DmrData_Rate12LastBlockUnconfirmed rt : incremental (p_DmrData_Rate12LastBlockUnconfirmed rt).
Proof. unfold p_DmrData_Rate12LastBlockUnconfirmed. ic. Qed.
#[global] Hint Resolve ic_p_DmrData_Rate12LastBlockUnconfirmed : icd.
Lemma ic_p_DmrData_Rate1Confirmed rt : incremental (p_DmrData_Rate1Confirmed rt).
Proof. unfold p_DmrData_Rate1Confirmed. ic. Qed.
#[global] Hint Resolve ic_p_DmrData_Rate1Confirmed : icd.
Lemma ic_p_DmrData_Rate12Unconfirmed rt : incremental (p_DmrData_Rate12Unconfirmed rt).
Proof. unfold p_DmrData_Rate12Unconfirmed. ic. Qed.
#[global] Hint Resolve ic_p_DmrData_Rate12Unconfirmed : icd.
Lemma ic_p_DmrData  : incremental (p_DmrData ).
Proof. unfold p_DmrData. ic. Qed.
#[global] Hint Resolve ic_p_DmrData : icd.
Lemma ic_p_DmrDataHeader_DataHeaderShortRaw rt : incremental (p_DmrDataHeader_DataHeaderShortRaw rt).
Proof. unfold p_DmrDataHeader_DataHeaderShortRaw. ic. Qed.
#[global] Hint Resolve ic_p_DmrDataHeader_DataHeaderShortRaw : icd.
Lemma ic_p_DmrDataHeader_DataHeaderProprietary rt : incremental (p_DmrDataHeader_DataHeaderProprietary rt).
Proof. unfold p_DmrDataHeader_DataHeaderProprietary. ic. Qed.
#[global] Hint Resolve ic_p_DmrDataHeader_DataHeaderProprietary : icd.
Lemma ic_p_DmrDataHeader_DataHeaderShortStatusPrecoded rt : incremental (p_DmrDataHeader_DataHeaderShortStatusPrecoded rt).
Proof. unfold p_DmrDataHeader_DataHeaderShortStatusPrecoded. ic. Qed.
#[global] Hint Resolve ic_p_DmrDataHeader_DataHeaderShortStatusPrecoded : icd.
Lemma ic_p_DmrDataHeader_DataHeaderResponse rt : incremental (p_DmrDataHeader_DataHeaderResponse rt).
Proof. unfold p_DmrDataHeader_DataHeaderResponse. ic. Qed.
#[global] Hint Resolve ic_p_DmrDataHeader_DataHeaderResponse : icd.
Lemma ic_p_DmrDataHeader_DataHeaderConfirmed rt : incremental (p_DmrDataHeader_DataHeaderConfirmed rt).
Proof. unfold p_DmrDataHeader_DataHeaderConfirmed. ic. Qed.
#[global] Hint Resolve ic_p_DmrDataHeader_DataHeaderConfirmed : icd.
Lemma ic_p_DmrDataHeader_DataHeaderUnconfirmed rt : incremental (p_DmrDataHeader_DataHeaderUnconfirmed rt).
Proof. unfold p_DmrDataHeader_DataHeaderUnconfirmed. ic. Qed.
#[global] Hint Resolve ic_p_DmrDataHeader_DataHeaderUnconfirmed : icd.
Lemma ic_p_DmrDataHeader_DataHeaderShortDefined rt : incremental (p_DmrDataHeader_DataHeaderShortDefined rt).
Proof. unfold p_DmrDataHeader_DataHeaderShortDefined. ic. Qed.
#[global] Hint Resolve ic_p_DmrDataHeader_DataHeaderShortDefined : icd.
Lemma ic_p_DmrDataHeader_DataHeaderUdt rt : incremental (p_DmrDataHeader_DataHeaderUdt rt).
Proof. unfold p_DmrDataHeader_DataHeaderUdt. ic. Qed.
#[global] Hint Resolve ic_p_DmrDataHeader_DataHeaderUdt : icd.
Lemma ic_p_DmrDataHeader  : incremental (p_DmrDataHeader ).
Proof. unfold p_DmrDataHeader. ic. Qed.
#[global] Hint Resolve ic_p_DmrDataHeader : icd.
Lemma ic_p_DmrIpUdp  : incremental (p_DmrIpUdp ).
Proof. unfold p_DmrIpUdp. ic. Qed.
#[global] Hint Resolve ic_p_DmrIpUdp : icd.
Lemma ic_p_FullLinkControl_GpsInfoLcPdu  : incremental (p_FullLinkControl_GpsInfoLcPdu ).
Proof. unfold p_FullLinkControl_GpsInfoLcPdu. ic. Qed.
#[global] Hint Resolve ic_p_FullLinkControl_GpsInfoLcPdu : icd.
Lemma ic_p_FullLinkControl_GroupVoiceChannelUser  : incremental (p_FullLinkControl_GroupVoiceChannelUser ).
Proof. unfold p_FullLinkControl_GroupVoiceChannelUser. ic. Qed.
#[global] Hint Resolve ic_p_FullLinkControl_GroupVoiceChannelUser : icd.
Lemma ic_p_FullLinkControl_UnitToUnitVoiceChannelUser  : incremental (p_FullLinkControl_UnitToUnitVoiceChannelUser ).
Proof. unfold p_FullLinkControl_UnitToUnitVoiceChannelUser. ic. Qed.
#[global] Hint Resolve ic_p_FullLinkControl_UnitToUnitVoiceChannelUser : icd.
Lemma ic_p_FullLinkControl_TalkerAliasHeader  : incremental (p_FullLinkControl_TalkerAliasHeader ).
Proof. unfold p_FullLinkControl_TalkerAliasHeader. ic. Qed.
#[global] Hint Resolve ic_p_FullLinkControl_TalkerAliasHeader : icd.
Lemma ic_p_FullLinkControl_TalkerAliasContinuation  : incremental (p_FullLinkControl_TalkerAliasContinuation ).
Proof. unfold p_FullLinkControl_TalkerAliasContinuation. ic. Qed.
#[global] Hint Resolve ic_p_FullLinkControl_TalkerAliasContinuation : icd.
Lemma ic_p_Homebrew2015_TypeMasterPing rt : incremental (p_Homebrew2015_TypeMasterPing rt).
Proof. unfold p_Homebrew2015_TypeMasterPing. ic. Qed.
#[global] Hint Resolve ic_p_Homebrew2015_TypeMasterPing : icd.
Lemma ic_p_Homebrew2015_TypeRepeaterPong rt : incremental (p_Homebrew2015_TypeRepeaterPong rt).
Proof. unfold p_Homebrew2015_TypeRepeaterPong. ic. Qed.
#[global] Hint Resolve ic_p_Homebrew2015_TypeRepeaterPong : icd.
Lemma ic_p_Homebrew2015_TypeRepeaterLoginResponse rt : incremental (p_Homebrew2015_TypeRepeaterLoginResponse rt).
Proof. unfold p_Homebrew2015_TypeRepeaterLoginResponse. ic. Qed.
#[global] Hint Resolve ic_p_Homebrew2015_TypeRepeaterLoginResponse : icd.
Lemma ic_p_Homebrew2015_TypeRepeaterLoginRequest rt : incremental (p_Homebrew2015_TypeRepeaterLoginRequest rt).
Proof. unfold p_Homebrew2015_TypeRepeaterLoginRequest. ic. Qed.
#[global] Hint Resolve ic_p_Homebrew2015_TypeRepeaterLoginRequest : icd.
Lemma ic_p_Homebrew2015_TypeMasterNotAccept rt : incremental (p_Homebrew2015_TypeMasterNotAccept rt).
Proof. unfold p_Homebrew2015_TypeMasterNotAccept. ic. Qed.
#[global] Hint Resolve ic_p_Homebrew2015_TypeMasterNotAccept : icd.
Lemma ic_p_Homebrew2015_TypeMasterClosing rt : incremental (p_Homebrew2015_TypeMasterClosing rt).
Proof. unfold p_Homebrew2015_TypeMasterClosing. ic. Qed.
#[global] Hint Resolve ic_p_Homebrew2015_TypeMasterClosing : icd.
Lemma ic_p_Homebrew2015_TypeRepeaterClosing rt : incremental (p_Homebrew2015_TypeRepeaterClosing rt).
Proof. unfold p_Homebrew2015_TypeRepeaterClosing. ic. Qed.
#[global] Hint Resolve ic_p_Homebrew2015_TypeRepeaterClosing : icd.
Lemma ic_p_Mmdvm2020_TypeMasterPong rt : incremental (p_Mmdvm2020_TypeMasterPong rt).
Proof. unfold p_Mmdvm2020_TypeMasterPong. ic. Qed.
#[global] Hint Resolve ic_p_Mmdvm2020_TypeMasterPong : icd.
Lemma ic_p_Mmdvm2020_TypeRadioPosition  : incremental (p_Mmdvm2020_TypeRadioPosition ).
Proof. unfold p_Mmdvm2020_TypeRadioPosition. ic. Qed.
#[global] Hint Resolve ic_p_Mmdvm2020_TypeRadioPosition : icd.
Lemma ic_p_Mmdvm2020_TypeTalkerAlias rt : incremental (p_Mmdvm2020_TypeTalkerAlias rt).
Proof. unfold p_Mmdvm2020_TypeTalkerAlias. ic. Qed.
#[global] Hint Resolve ic_p_Mmdvm2020_TypeTalkerAlias : icd.
Lemma ic_p_Mmdvm2020_TypeRepeaterLoginResponse rt : incremental (p_Mmdvm2020_TypeRepeaterLoginResponse rt).
Proof. unfold p_Mmdvm2020_TypeRepeaterLoginResponse. ic. Qed.
#[global] Hint Resolve ic_p_Mmdvm2020_TypeRepeaterLoginResponse : icd.
Lemma ic_p_Mmdvm2020_TypeRepeaterLoginRequest rt : incremental (p_Mmdvm2020_TypeRepeaterLoginRequest rt).
Proof. unfold p_Mmdvm2020_TypeRepeaterLoginRequest. ic. Qed.
#[global] Hint Resolve ic_p_Mmdvm2020_TypeRepeaterLoginRequest : icd.
Lemma ic_p_Mmdvm2020_TypeMasterNotAccept rt : incremental (p_Mmdvm2020_TypeMasterNotAccept rt).
Proof. unfold p_Mmdvm2020_TypeMasterNotAccept. ic. Qed.
#[global] Hint Resolve ic_p_Mmdvm2020_TypeMasterNotAccept : icd.
Lemma ic_p_Mmdvm2020_TypeMasterRepeaterAck rt : incremental (p_Mmdvm2020_TypeMasterRepeaterAck rt).
Proof. unfold p_Mmdvm2020_TypeMasterRepeaterAck. ic. Qed.
#[global] Hint Resolve ic_p_Mmdvm2020_TypeMasterRepeaterAck : icd.
Lemma ic_p_Mmdvm2020_TypeMasterClosing rt : incremental (p_Mmdvm2020_TypeMasterClosing rt).
Proof. unfold p_Mmdvm2020_TypeMasterClosing. ic. Qed.
#[global] Hint Resolve ic_p_Mmdvm2020_TypeMasterClosing : icd.
Lemma ic_p_Mmdvm2020_TypeRepeaterBeacon  : incremental (p_Mmdvm2020_TypeRepeaterBeacon ).
Proof. unfold p_Mmdvm2020_TypeRepeaterBeacon. ic. Qed.
#[global] Hint Resolve ic_p_Mmdvm2020_TypeRepeaterBeacon : icd.
Lemma ic_p_Mmdvm2020_TypeRepeaterClosing rt : incremental (p_Mmdvm2020_TypeRepeaterClosing rt).
Proof. unfold p_Mmdvm2020_TypeRepeaterClosing. ic. Qed.
#[global] Hint Resolve ic_p_Mmdvm2020_TypeRepeaterClosing : icd.
Lemma ic_p_Mmdvm2020_TypeRepeaterPing rt : incremental (p_Mmdvm2020_TypeRepeaterPing rt).
Proof. unfold p_Mmdvm2020_TypeRepeaterPing. ic. Qed.
#[global] Hint Resolve ic_p_Mmdvm2020_TypeRepeaterPing : icd.
Lemma ic_p_RadioIp rt : incremental (p_RadioIp rt).
Proof. unfold p_RadioIp. ic. Qed.
#[global] Hint Resolve ic_p_RadioIp : icd.
Lemma ic_p_RadioId rt : incremental (p_RadioId rt).
Proof. unfold p_RadioId. ic. Qed.
#[global] Hint Resolve ic_p_RadioId : icd.
Lemma ic_p_Datetimestring rt : incremental (p_Datetimestring rt).
Proof. unfold p_Datetimestring. ic. Qed.
#[global] Hint Resolve ic_p_Datetimestring : icd.
Lemma ic_p_Intervalstring rt : incremental (p_Intervalstring rt).
Proof. unfold p_Intervalstring. ic. Qed.
#[global] Hint Resolve ic_p_Intervalstring : icd.
Lemma ic_p_Gpsdata rt : incremental (p_Gpsdata rt).
Proof. unfold p_Gpsdata. ic. Qed.
#[global] Hint Resolve ic_p_Gpsdata : icd.
Lemma ic_p_RadioRegistrationService rt : incremental (p_RadioRegistrationService rt).
Proof. unfold p_RadioRegistrationService. ic. Qed.
#[global] Hint Resolve ic_p_RadioRegistrationService : icd.
Lemma ic_p_DataDeliveryStates rt : incremental (p_DataDeliveryStates rt).
Proof. unfold p_DataDeliveryStates. ic. Qed.
#[global] Hint Resolve ic_p_DataDeliveryStates : icd.
Lemma ic_p_DataTransmitProtocol_LastDataSlice rt : incremental (p_DataTransmitProtocol_LastDataSlice rt).
Proof. unfold p_DataTransmitProtocol_LastDataSlice. ic. Qed.
#[global] Hint Resolve ic_p_DataTransmitProtocol_LastDataSlice : icd.
Lemma ic_p_DataTransmitProtocol_DtpRequest rt x1 : incremental (p_DataTransmitProtocol_DtpRequest rt x1).
Proof. unfold p_DataTransmitProtocol_DtpRequest. ic. Qed.
#[global] Hint Resolve ic_p_DataTransmitProtocol_DtpRequest : icd.
Lemma ic_p_DataTransmitProtocol_DataSliceAnswer rt : incremental (p_DataTransmitProtocol_DataSliceAnswer rt).
Proof. unfold p_DataTransmitProtocol_DataSliceAnswer. ic. Qed.
#[global] Hint Resolve ic_p_DataTransmitProtocol_DataSliceAnswer : icd.
Lemma ic_p_DataTransmitProtocol_DataSliceTransmit rt x1 : incremental (p_DataTransmitProtocol_DataSliceTransmit rt x1).
Proof. unfold p_DataTransmitProtocol_DataSliceTransmit. ic. Qed.
#[global] Hint Resolve ic_p_DataTransmitProtocol_DataSliceTransmit : icd.
Lemma ic_p_DataTransmitProtocol_LastDataSliceAnswer rt : incremental (p_DataTransmitProtocol_LastDataSliceAnswer rt).
Proof. unfold p_DataTransmitProtocol_LastDataSliceAnswer. ic. Qed.
#[global] Hint Resolve ic_p_DataTransmitProtocol_LastDataSliceAnswer : icd.
Lemma ic_p_DataTransmitProtocol_DtpAnswer rt : incremental (p_DataTransmitProtocol_DtpAnswer rt).
Proof. unfold p_DataTransmitProtocol_DtpAnswer. ic. Qed.
#[global] Hint Resolve ic_p_DataTransmitProtocol_DtpAnswer : icd.
Lemma ic_p_DataTransmitProtocol rt : incremental (p_DataTransmitProtocol rt).
Proof. unfold p_DataTransmitProtocol. ic. Qed.
#[global] Hint Resolve ic_p_DataTransmitProtocol : icd.
Lemma ic_p_TextMessageProtocol rt : incremental (p_TextMessageProtocol rt).
Proof. unfold p_TextMessageProtocol, TextMessageProtocol_option_sum_len. ic. Qed.
#[global] Hint Resolve ic_p_TextMessageProtocol : icd.
Lemma ic_p_LocationProtocol_TriggeredReportStopAnswer rt : incremental (p_LocationProtocol_TriggeredReportStopAnswer rt).
Proof. unfold p_LocationProtocol_TriggeredReportStopAnswer. ic. Qed.
#[global] Hint Resolve ic_p_LocationProtocol_TriggeredReportStopAnswer : icd.
Lemma ic_p_LocationProtocol_ConditionReportRequest rt : incremental (p_LocationProtocol_ConditionReportRequest rt).
Proof. unfold p_LocationProtocol_ConditionReportRequest. ic. Qed.
#[global] Hint Resolve ic_p_LocationProtocol_ConditionReportRequest : icd.
Lemma ic_p_LocationProtocol_QuickGpsPayload rt : incremental (p_LocationProtocol_QuickGpsPayload rt).
Proof. unfold p_LocationProtocol_QuickGpsPayload. ic. Qed.
#[global] Hint Resolve ic_p_LocationProtocol_QuickGpsPayload : icd.
Lemma ic_p_LocationProtocol_ConditionQuickGpsRequest rt : incremental (p_LocationProtocol_ConditionQuickGpsRequest rt).
Proof. unfold p_LocationProtocol_ConditionQuickGpsRequest. ic. Qed.
#[global] Hint Resolve ic_p_LocationProtocol_ConditionQuickGpsRequest : icd.
Lemma ic_p_LocationProtocol_ConditionReport rt : incremental (p_LocationProtocol_ConditionReport rt).
Proof. unfold p_LocationProtocol_ConditionReport. ic. Qed.
#[global] Hint Resolve ic_p_LocationProtocol_ConditionReport : icd.
Lemma ic_p_LocationProtocol_EmergencyReport rt : incremental (p_LocationProtocol_EmergencyReport rt).
Proof. unfold p_LocationProtocol_EmergencyReport. ic. Qed.
#[global] Hint Resolve ic_p_LocationProtocol_EmergencyReport : icd.
Lemma ic_p_LocationProtocol_TriggeredReportAnswer rt : incremental (p_LocationProtocol_TriggeredReportAnswer rt).
Proof. unfold p_LocationProtocol_TriggeredReportAnswer. ic. Qed.
#[global] Hint Resolve ic_p_LocationProtocol_TriggeredReportAnswer : icd.
Lemma ic_p_LocationProtocol_StandardAnswerWithRssi rt : incremental (p_LocationProtocol_StandardAnswerWithRssi rt).
Proof. unfold p_LocationProtocol_StandardAnswerWithRssi. ic. Qed.
#[global] Hint Resolve ic_p_LocationProtocol_StandardAnswerWithRssi : icd.
Lemma ic_p_LocationProtocol_StandardRequest rt : incremental (p_LocationProtocol_StandardRequest rt).
Proof. unfold p_LocationProtocol_StandardRequest. ic. Qed.
#[global] Hint Resolve ic_p_LocationProtocol_StandardRequest : icd.
Lemma ic_p_LocationProtocol_TriggeredReportRequest rt : incremental (p_LocationProtocol_TriggeredReportRequest rt).
Proof. unfold p_LocationProtocol_TriggeredReportRequest. ic. Qed.
#[global] Hint Resolve ic_p_LocationProtocol_TriggeredReportRequest : icd.
Lemma ic_p_LocationProtocol_StandardAnswer rt : incremental (p_LocationProtocol_StandardAnswer rt).
Proof. unfold p_LocationProtocol_StandardAnswer. ic. Qed.
#[global] Hint Resolve ic_p_LocationProtocol_StandardAnswer : icd.
Lemma ic_p_LocationProtocol_ConditionReportAnswer rt : incremental (p_LocationProtocol_ConditionReportAnswer rt).
Proof. unfold p_LocationProtocol_ConditionReportAnswer. ic. Qed.
#[global] Hint Resolve ic_p_LocationProtocol_ConditionReportAnswer : icd.
Lemma ic_p_LocationProtocol_EmergencyReportStopRequest rt : incremental (p_LocationProtocol_EmergencyReportStopRequest rt).
Proof. unfold p_LocationProtocol_EmergencyReportStopRequest. ic. Qed.
#[global] Hint Resolve ic_p_LocationProtocol_EmergencyReportStopRequest : icd.
Lemma ic_p_LocationProtocol_ConditionQuickGpsAnswer rt : incremental (p_LocationProtocol_ConditionQuickGpsAnswer rt).
Proof. unfold p_LocationProtocol_ConditionQuickGpsAnswer. ic. Qed.
#[global] Hint Resolve ic_p_LocationProtocol_ConditionQuickGpsAnswer : icd.
Lemma ic_p_LocationProtocol_TriggeredReport rt : incremental (p_LocationProtocol_TriggeredReport rt).
Proof. unfold p_LocationProtocol_TriggeredReport. ic. Qed.
#[global] Hint Resolve ic_p_LocationProtocol_TriggeredReport : icd.
Lemma ic_p_LocationProtocol_ConditionReportWithRssi rt : incremental (p_LocationProtocol_ConditionReportWithRssi rt).
Proof. unfold p_LocationProtocol_ConditionReportWithRssi. ic. Qed.
#[global] Hint Resolve ic_p_LocationProtocol_ConditionReportWithRssi : icd.
Lemma ic_p_LocationProtocol_EmergencyReportStopAnswer rt : incremental (p_LocationProtocol_EmergencyReportStopAnswer rt).
Proof. unfold p_LocationProtocol_EmergencyReportStopAnswer. ic. Qed.
#[global] Hint Resolve ic_p_LocationProtocol_EmergencyReportStopAnswer : icd.
Lemma ic_p_LocationProtocol_TriggeredReportStopRequest rt : incremental (p_LocationProtocol_TriggeredReportStopRequest rt).
Proof. unfold p_LocationProtocol_TriggeredReportStopRequest. ic. Qed.
#[global] Hint Resolve ic_p_LocationProtocol_TriggeredReportStopRequest : icd.
Lemma ic_p_LocationProtocol rt : incremental (p_LocationProtocol rt).
Proof. unfold p_LocationProtocol. ic. Qed.
#[global] Hint Resolve ic_p_LocationProtocol : icd.
Lemma ic_p_TelemetryProtocol_StandardStatusReport rt : incremental (p_TelemetryProtocol_StandardStatusReport rt).
Proof. unfold p_TelemetryProtocol_StandardStatusReport. ic. Qed.
#[global] Hint Resolve ic_p_TelemetryProtocol_StandardStatusReport : icd.
Lemma ic_p_TelemetryProtocol_VioExtendedStatus rt : incremental (p_TelemetryProtocol_VioExtendedStatus rt).
Proof. unfold p_TelemetryProtocol_VioExtendedStatus. ic. Qed.
#[global] Hint Resolve ic_p_TelemetryProtocol_VioExtendedStatus : icd.
Lemma ic_p_TelemetryProtocol_RemoteControlAnswer rt : incremental (p_TelemetryProtocol_RemoteControlAnswer rt).
Proof. unfold p_TelemetryProtocol_RemoteControlAnswer. ic. Qed.
#[global] Hint Resolve ic_p_TelemetryProtocol_RemoteControlAnswer : icd.
Lemma ic_p_TelemetryProtocol_RemoteControlRequest rt : incremental (p_TelemetryProtocol_RemoteControlRequest rt).
Proof. unfold p_TelemetryProtocol_RemoteControlRequest. ic. Qed.
#[global] Hint Resolve ic_p_TelemetryProtocol_RemoteControlRequest : icd.
Lemma ic_p_TelemetryProtocol_ExtendedStatusReport rt : incremental (p_TelemetryProtocol_ExtendedStatusReport rt).
Proof. unfold p_TelemetryProtocol_ExtendedStatusReport. ic. Qed.
#[global] Hint Resolve ic_p_TelemetryProtocol_ExtendedStatusReport : icd.
Lemma ic_p_TelemetryProtocol_StandardStatusRequest rt : incremental (p_TelemetryProtocol_StandardStatusRequest rt).
Proof. unfold p_TelemetryProtocol_StandardStatusRequest. ic. Qed.
#[global] Hint Resolve ic_p_TelemetryProtocol_StandardStatusRequest : icd.
Lemma ic_p_TelemetryProtocol rt : incremental (p_TelemetryProtocol rt).
Proof.
  unfold p_TelemetryProtocol. apply (ic_bind_far 0 1); [apply ic_venum, ic_u1|intros s a s'; apply adv_venum_u1|]. intros x1.
  apply (ic_bind_far 1 1); [apply ic_mono, ic_u1|intros s a s'; apply adv_u1|]. intros x2.
  apply ic_bind_at; [apply ic_mono, ic_u2be|]. intros x3.
  apply ic_bind_at; [apply ic_specific_service|]. intros x4. apply ic_mono.
  ic.
Qed.
#[global] Hint Resolve ic_p_TelemetryProtocol : icd.
Lemma ic_p_RadioControlProtocol_BroadcastStatusConfigurationReply rt : incremental (p_RadioControlProtocol_BroadcastStatusConfigurationReply rt).
Proof. unfold p_RadioControlProtocol_BroadcastStatusConfigurationReply. ic. Qed.
#[global] Hint Resolve ic_p_RadioControlProtocol_BroadcastStatusConfigurationReply : icd.
Lemma ic_p_RadioControlProtocol_BroadcastConfiguration rt : incremental (p_RadioControlProtocol_BroadcastConfiguration rt).
Proof. unfold p_RadioControlProtocol_BroadcastConfiguration. ic. Qed.
#[global] Hint Resolve ic_p_RadioControlProtocol_BroadcastConfiguration : icd.
Lemma ic_p_RadioControlProtocol_BroadcastStatusConfigurationRequest rt : incremental (p_RadioControlProtocol_BroadcastStatusConfigurationRequest rt).
Proof. unfold p_RadioControlProtocol_BroadcastStatusConfigurationRequest. ic. Qed.
#[global] Hint Resolve ic_p_RadioControlProtocol_BroadcastStatusConfigurationRequest : icd.
Lemma ic_p_RadioControlProtocol_RadioIdentificationReply rt x1 : incremental (p_RadioControlProtocol_RadioIdentificationReply rt x1).
Proof. unfold p_RadioControlProtocol_RadioIdentificationReply. ic. Qed.
#[global] Hint Resolve ic_p_RadioControlProtocol_RadioIdentificationReply : icd.
Lemma ic_p_RadioControlProtocol_GenericData rt x1 : incremental (p_RadioControlProtocol_GenericData rt x1).
Proof. unfold p_RadioControlProtocol_GenericData. ic. Qed.
#[global] Hint Resolve ic_p_RadioControlProtocol_GenericData : icd.
Lemma ic_p_RadioControlProtocol_CallRequest rt : incremental (p_RadioControlProtocol_CallRequest rt).
Proof. unfold p_RadioControlProtocol_CallRequest. ic. Qed.
#[global] Hint Resolve ic_p_RadioControlProtocol_CallRequest : icd.
Lemma ic_p_RadioControlProtocol_RemoveRadioReply rt : incremental (p_RadioControlProtocol_RemoveRadioReply rt).
Proof. unfold p_RadioControlProtocol_RemoveRadioReply. ic. Qed.
#[global] Hint Resolve ic_p_RadioControlProtocol_RemoveRadioReply : icd.
Lemma ic_p_RadioControlProtocol_RemoveRadioRequest  : incremental (p_RadioControlProtocol_RemoveRadioRequest ).
Proof. unfold p_RadioControlProtocol_RemoveRadioRequest. ic. Qed.
#[global] Hint Resolve ic_p_RadioControlProtocol_RemoveRadioRequest : icd.
Lemma ic_p_RadioControlProtocol_CallReply rt : incremental (p_RadioControlProtocol_CallReply rt).
Proof. unfold p_RadioControlProtocol_CallReply. ic. Qed.
#[global] Hint Resolve ic_p_RadioControlProtocol_CallReply : icd.
Lemma ic_p_RadioControlProtocol rt : incremental (p_RadioControlProtocol rt).
Proof. unfold p_RadioControlProtocol. ic. Qed.
#[global] Hint Resolve ic_p_RadioControlProtocol : icd.
Lemma ic_p_HyteraDmrApplicationProtocol rt : incremental (p_HyteraDmrApplicationProtocol rt).
Proof. unfold p_HyteraDmrApplicationProtocol. ic. Qed.
#[global] Hint Resolve ic_p_HyteraDmrApplicationProtocol : icd.
Lemma ic_p_HyteraRadioNetworkProtocol rt : incremental (p_HyteraRadioNetworkProtocol rt).
Proof. unfold p_HyteraRadioNetworkProtocol. ic. Qed.
#[global] Hint Resolve ic_p_HyteraRadioNetworkProtocol : icd.
Lemma ic_p_HyteraSimpleTransportReliabilityProtocol_Option rt : incremental (p_HyteraSimpleTransportReliabilityProtocol_Option rt).
Proof. unfold p_HyteraSimpleTransportReliabilityProtocol_Option. ic. Qed.
#[global] Hint Resolve ic_p_HyteraSimpleTransportReliabilityProtocol_Option : icd.
Lemma ic_p_IpSiteConnectHeartbeat_Keepalive rt : incremental (p_IpSiteConnectHeartbeat_Keepalive rt).
Proof. unfold p_IpSiteConnectHeartbeat_Keepalive. ic. Qed.
#[global] Hint Resolve ic_p_IpSiteConnectHeartbeat_Keepalive : icd.
Lemma ic_p_IpSiteConnectHeartbeat_PingPong rt : incremental (p_IpSiteConnectHeartbeat_PingPong rt).
Proof. unfold p_IpSiteConnectHeartbeat_PingPong. ic. Qed.
#[global] Hint Resolve ic_p_IpSiteConnectHeartbeat_PingPong : icd.
Lemma ic_p_RealTimeTransportProtocol_FixedHeader rt : incremental (p_RealTimeTransportProtocol_FixedHeader rt).
Proof. unfold p_RealTimeTransportProtocol_FixedHeader. ic. Qed.
#[global] Hint Resolve ic_p_RealTimeTransportProtocol_FixedHeader : icd.
Lemma ic_p_RealTimeTransportProtocol_HeaderExtension rt : incremental (p_RealTimeTransportProtocol_HeaderExtension rt).
Proof. unfold p_RealTimeTransportProtocol_HeaderExtension. ic. Qed.
#[global] Hint Resolve ic_p_RealTimeTransportProtocol_HeaderExtension : icd.
Lemma ic_p_AutomaticRegistrationService_DeviceRegistrationMessageHeader  : incremental (p_AutomaticRegistrationService_DeviceRegistrationMessageHeader ).
Proof. unfold p_AutomaticRegistrationService_DeviceRegistrationMessageHeader. ic. Qed.
#[global] Hint Resolve ic_p_AutomaticRegistrationService_DeviceRegistrationMessageHeader : icd.
Lemma ic_p_AutomaticRegistrationService_MessageHeaderBits  : incremental (p_AutomaticRegistrationService_MessageHeaderBits ).
Proof. unfold p_AutomaticRegistrationService_MessageHeaderBits. ic. Qed.
#[global] Hint Resolve ic_p_AutomaticRegistrationService_MessageHeaderBits : icd.
Lemma ic_p_AutomaticRegistrationService_DeviceDeregistrationMessage  : incremental (p_AutomaticRegistrationService_DeviceDeregistrationMessage ).
Proof. unfold p_AutomaticRegistrationService_DeviceDeregistrationMessage. ic. Qed.
#[global] Hint Resolve ic_p_AutomaticRegistrationService_DeviceDeregistrationMessage : icd.
Lemma ic_p_AutomaticRegistrationService_DeviceRegistrationAcknowledgementFailureReason  : incremental (p_AutomaticRegistrationService_DeviceRegistrationAcknowledgementFailureReason ).
Proof. unfold p_AutomaticRegistrationService_DeviceRegistrationAcknowledgementFailureReason. ic. Qed.
#[global] Hint Resolve ic_p_AutomaticRegistrationService_DeviceRegistrationAcknowledgementFailureReason : icd.
Lemma ic_p_AutomaticRegistrationService_DeviceRegistrationAcknowledgementHeader  : incremental (p_AutomaticRegistrationService_DeviceRegistrationAcknowledgementHeader ).
Proof. unfold p_AutomaticRegistrationService_DeviceRegistrationAcknowledgementHeader. ic. Qed.
#[global] Hint Resolve ic_p_AutomaticRegistrationService_DeviceRegistrationAcknowledgementHeader : icd.
Lemma ic_p_AutomaticRegistrationService_ArsQueryMessage  : incremental (p_AutomaticRegistrationService_ArsQueryMessage ).
Proof. unfold p_AutomaticRegistrationService_ArsQueryMessage. ic. Qed.
#[global] Hint Resolve ic_p_AutomaticRegistrationService_ArsQueryMessage : icd.
Lemma ic_p_MotTextMessageProtocol_TextMessageHeaderSequenceAndEncoding  : incremental (p_MotTextMessageProtocol_TextMessageHeaderSequenceAndEncoding ).
Proof. unfold p_MotTextMessageProtocol_TextMessageHeaderSequenceAndEncoding. ic. Qed.
#[global] Hint Resolve ic_p_MotTextMessageProtocol_TextMessageHeaderSequenceAndEncoding : icd.
Lemma ic_p_MotTextMessageProtocol_TmsServiceAvailabilityHeader  : incremental (p_MotTextMessageProtocol_TmsServiceAvailabilityHeader ).
Proof. unfold p_MotTextMessageProtocol_TmsServiceAvailabilityHeader. ic. Qed.
#[global] Hint Resolve ic_p_MotTextMessageProtocol_TmsServiceAvailabilityHeader : icd.
Lemma ic_p_MotTextMessageProtocol_MessageHeaderBits  : incremental (p_MotTextMessageProtocol_MessageHeaderBits ).
Proof. unfold p_MotTextMessageProtocol_MessageHeaderBits. ic. Qed.
#[global] Hint Resolve ic_p_MotTextMessageProtocol_MessageHeaderBits : icd.
Lemma ic_p_MotTextMessageProtocol_TmsAcknowledgementHeaderSequenceNumber  : incremental (p_MotTextMessageProtocol_TmsAcknowledgementHeaderSequenceNumber ).
Proof. unfold p_MotTextMessageProtocol_TmsAcknowledgementHeaderSequenceNumber. ic. Qed.
#[global] Hint Resolve ic_p_MotTextMessageProtocol_TmsAcknowledgementHeaderSequenceNumber : icd.
Lemma ic_p_MotTextMessageProtocol_TmsServiceAvailabilityAcknowledgement  : incremental (p_MotTextMessageProtocol_TmsServiceAvailabilityAcknowledgement ).
Proof. unfold p_MotTextMessageProtocol_TmsServiceAvailabilityAcknowledgement. ic. Qed.
#[global] Hint Resolve ic_p_MotTextMessageProtocol_TmsServiceAvailabilityAcknowledgement : icd.
Lemma ic_p_MotorolaBinaryXml_OpaqueElementValue rt : incremental (p_MotorolaBinaryXml_OpaqueElementValue rt).
Proof. unfold p_MotorolaBinaryXml_OpaqueElementValue. ic. Qed.
#[global] Hint Resolve ic_p_MotorolaBinaryXml_OpaqueElementValue : icd.
Lemma ic_p_MotorolaBinaryXml_Opaque1byteValue rt : incremental (p_MotorolaBinaryXml_Opaque1byteValue rt).
Proof. unfold p_MotorolaBinaryXml_Opaque1byteValue. ic. Qed.
#[global] Hint Resolve ic_p_MotorolaBinaryXml_Opaque1byteValue : icd.
Lemma ic_p_MotorolaBinaryXml_Opaque2byteValue rt : incremental (p_MotorolaBinaryXml_Opaque2byteValue rt).
Proof. unfold p_MotorolaBinaryXml_Opaque2byteValue. ic. Qed.
#[global] Hint Resolve ic_p_MotorolaBinaryXml_Opaque2byteValue : icd.
Lemma ic_p_MotorolaBinaryXml_Opaque3byteValue rt : incremental (p_MotorolaBinaryXml_Opaque3byteValue rt).
Proof. unfold p_MotorolaBinaryXml_Opaque3byteValue. ic. Qed.
#[global] Hint Resolve ic_p_MotorolaBinaryXml_Opaque3byteValue : icd.
Lemma ic_p_MotorolaBinaryXml_Opaque4byteValue rt : incremental (p_MotorolaBinaryXml_Opaque4byteValue rt).
Proof. unfold p_MotorolaBinaryXml_Opaque4byteValue. ic. Qed.
#[global] Hint Resolve ic_p_MotorolaBinaryXml_Opaque4byteValue : icd.
Lemma ic_p_MotorolaBinaryXml_Opaque5byteValue rt : incremental (p_MotorolaBinaryXml_Opaque5byteValue rt).
Proof. unfold p_MotorolaBinaryXml_Opaque5byteValue. ic. Qed.
#[global] Hint Resolve ic_p_MotorolaBinaryXml_Opaque5byteValue : icd.


Lemma self_delimiting_incremental : Forall (fun np => forall rt, incremental (snd np rt)) self_delimiting.
Proof. unfold self_delimiting. repeat (apply Forall_cons; [intros rt; cbn [snd]; cbv beta; auto with icd|]). apply Forall_nil. Qed.
