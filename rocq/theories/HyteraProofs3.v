(** IPSC, its heartbeat, and RTP. *)
From Verif Require Import PyBase Runtime Codec CodecSpec CodecProofs Spec DecSpec RuntimeProofs DecProofs Enums EnumProofs Getters HyteraModel HyteraSpec HyteraRuns HyteraProofs HyteraProofs2.
From Coq Require Import ZifyBool.
Ltac Zify.zify_post_hook ::= Z.div_mod_to_equations.
Open Scope string_scope.
Open Scope list_scope.
Open Scope Z_scope.

Section S.
Context (rt : runtime).

Definition whole (f : bytes -> res pyval) : decoder := fun b _ => rmap (fun v => (v, blen b)) (f b).

Lemma from_bytes_agrees (m : M pyval) (f : bytes -> res pyval) b : agrees b 0 (runM m (at_ b 0 0)) (rmap (fun v => (v, blen b)) (f b)) -> from_bytes m b = f b.
Proof.
  intros H. rewrite from_bytes_runM, at_init. unfold agrees in H.
  destruct (f b) as [v|y]; cbn [rmap] in H; [destruct H as [-> _]|rewrite H]; reflexivity.
Qed.
Lemma rmap_rbind {A B C} (f : B -> C) (r : res A) (k : A -> res B) : rmap f (rbind r k) = rbind r (fun a => rmap f (k a)).
Proof. destruct r; reflexivity. Qed.

Lemma ipsc_meets b : from_bytes (p_IpSiteConnectProtocol rt) b = ipsc_spec b.
Proof.
  apply from_bytes_agrees. pose proof (blen_nonneg b).
  unfold p_IpSiteConnectProtocol, ipsc_spec. rewrite rmap_rbind.
  eapply fld_seq; [seqok|lia|]. intros a Ha Hf. change (fs_end L_IpSiteConnectProtocol 0) with 576 in *.
  pos. change (0 + 72) with 72 in *. erewrite step_ok by (apply run_is_eof; zside). change (72 + 0 / 8) with 72.
  destruct (Z.leb_spec (blen b) 72), (Z.ltb_spec 72 (blen b)); try lia; cbn [negb]; cbv iota.
  - unfold none. rewrite step_ret. replace (blen b) with 72 by blens. leaf.
  - unfold some, vfull. rewrite !step_assoc. erewrite step_ok by (apply run_read_bytes_full; zside). 
    rewrite !step_ret. leaf.
Qed.

Lemma object_table cls fs b k : object cls fs b k = rmap fst (table cls fs b k).
Proof. unfold object, table. destruct (fields b k fs); reflexivity. Qed.
Lemma rbind_rmap {A B C} (f : A -> B) (r : res A) (k : B -> res C) : rbind (rmap f r) k = rbind r (fun a => k (f a)).
Proof. destruct r; reflexivity. Qed.

Lemma heartbeat_meets b : from_bytes (p_IpSiteConnectHeartbeat rt) b = heartbeat_spec b.
Proof.
  apply from_bytes_agrees. pose proof (blen_nonneg b).
  unfold p_IpSiteConnectHeartbeat, heartbeat_spec. rewrite rmap_rbind.
  erewrite step_ok by (apply run_io_size).
  destruct (Z.eqb_spec (blen b) 1) as [E|N]; [|destruct (Z.eqb_spec (blen b) 20) as [E|N']].
  - rewrite (object_table "IpSiteConnectHeartbeat.Keepalive" L_IpSiteConnectHeartbeat_Keepalive), rbind_rmap.
    eapply step_dec; [dec_tab|lia|]. intros v e He Hb.
    unfold table in He. destruct (fields _ _ _); [|discriminate]. injection He as <- He. cbn in He. subst e. rewrite <- E at 1.
    cbn [fst]. leaf.
  - rewrite (object_table "IpSiteConnectHeartbeat.PingPong" L_IpSiteConnectHeartbeat_PingPong), rbind_rmap.
    eapply step_dec; [dec_tab|lia|]. intros v e He Hb.
    unfold table in He. destruct (fields _ _ _); [|discriminate]. injection He as <- He. cbn in He. subst e. rewrite <- E at 1.
    cbn [fst]. leaf.
  - unfold p_IpSiteConnectHeartbeat_Unknown, obj. cbn [seq]. unfold vfull. rewrite !step_assoc.
    erewrite step_ok by (apply run_read_bytes_full; zside). repeat first [rewrite step_ret | rewrite step_assoc]. cbn [rbind rmap]. leaf.
Qed.

(** * RTP *)
Lemma d_rtp_fixed : runs_dec (p_RealTimeTransportProtocol_FixedHeader rt) rtp_fixed_header.
Proof.
  intros b k Hk. unfold p_RealTimeTransportProtocol_FixedHeader, rtp_fixed_header. cbv zeta.
  destruct (Z.ltb_spec (blen b) (k + 1)) as [Hs|Hl].
  { erewrite step_if by (apply run_read_bits; zside). rewrite (proj2 (fits_niff b k (0 + 2))) by lia. reflexivity. }
  unfold L_rtp_fixed. 
  destruct (Z.eqb_spec (ubits b (8 * k) 2) 2) as [E|N]; cbn [negb].
  2:{ erewrite step_if by (apply run_read_bits; zside). rewrite (proj2 (fits_iff b k (0 + 2))) by lia. cbv iota beta.
      rewrite Z.add_0_r. destruct (Z.eqb_spec (ubits b (8 * k) 2) 2); [congruence|]. rewrite step_fail. reflexivity. }
  fld1. rewrite !Z.add_0_r, E. change (2 =? 2) with true. cbv iota. flds. pos. cbv zeta.
  pose proof (ubits_bound b (8 * k + 4) 4 ltac:(lia)) as Hn. set (n := ubits b (8 * k + 4) 4) in *.
  unfold for_range. rewrite runM_bind, (run_repeat 4 _ (fun b k => VInt (ubits b (8 * k) 32))).
  3:{ intros. unfold vint. rewrite runM_bind, run_read_u4be by zside. change (8 * 4) with 32. change (0 + 32) with 32.
      destruct (fits b0 k0 32); [|reflexivity]. rewrite runM_ret, Z.add_0_r, (at_byte b0 k0 32) by reflexivity. reflexivity. }
  2:lia. 2:blens.
  rewrite Z2Nat.id by lia.
  destruct (Z.leb_spec (k + 12 + 4 * n) (blen b)), (Z.ltb_spec (blen b) (k + 12 + 4 * n)); try lia; [|reflexivity].
  leaf.
Qed.

Lemma rtp_flags b k v e : rtp_fixed_header b k = Ok (v, e) ->
  getattr "extension" v = Some (VBool (bit b (8 * k + 3))) /\ getattr "padding" v = Some (VBool (bit b (8 * k + 2))) /\ k + 12 <= e.
Proof.
  unfold rtp_fixed_header. cbv zeta. destruct (_ <? _); [discriminate|]. destruct (negb _); [discriminate|].
  unfold L_rtp_fixed. cbn [fields decode f_off f_kind f_name kwidth nwidth].
  repeat (match goal with |- context [if fits ?b ?k ?c then _ else _] => destruct (fits b k c) eqn:? end; [|discriminate]).
  cbn [rbind]. pose proof (ubits_bound b (8 * k + 4) 4 ltac:(lia)). remember (ubits b (8 * k + 4) 4) as n. remember (8 * k) as k8. remember (k + 12 + 4 * n) as e'.
  destruct (_ <? _); [discriminate|]. intros [= <- <-]. split; [reflexivity|]. split; [reflexivity|]. lia.
Qed.

Lemma rtp_tail b p v x ax : getattr "padding" v = Some (VBool (bit b 2)) -> opt "header_extension" x = ax -> 12 <= p <= blen b ->
  let n := if bit b 2 then ubits b (8 * (blen b - 1)) 8 else 0 in
  agrees b 0
    (runM
       (size_ <- io_size;;
        pos_ <- io_pos;;
        has_padding <- flag_of "padding" v;;
        lp <- RealTimeTransportProtocol_len_padding rt has_padding;;
        audio_data <- read_bytes rt (size_ - pos_ - snd lp);;
        padding <- (if has_padding then some (vbytes rt (snd lp)) else none);;
        ret
          (VObj "RealTimeTransportProtocol"
             ([("fixed_header", v)] ++ opt "header_extension" x ++ fst lp ++
              [("audio_data", VBytes audio_data)] ++ opt "padding" padding)))
       (at_ b p 0))
    (rmap (fun v1 : pyval => (v1, blen b))
       (if blen b - p <? n then Err ValueError
        else Ok
           (VObj "RealTimeTransportProtocol"
              ([("fixed_header", v)] ++ ax ++
               (if bit b 2 then [("_m_len_padding_if_exists", VInt n)] else []) ++ [("_m_len_padding", VInt n)] ++
               [("audio_data", VBytes (slice b p (blen b - p - n)))] ++
               (if bit b 2 then [("padding", VBytes (rest b (blen b - n)))] else []))))).
Proof.
  intros G <- Hp. cbv zeta. pose proof (blen_nonneg b) as Hb.
  erewrite step_ok by (apply run_io_size). erewrite step_ok by (apply run_io_pos; lia).
  replace (p + (0 + 7) / 8) with p by lia.
  unfold flag_of. rewrite G, step_ret. unfold RealTimeTransportProtocol_len_padding.
  destruct (bit b 2).
  - unfold RealTimeTransportProtocol_len_padding_if_exists. rewrite !step_assoc.
    erewrite step_ok by (apply run_io_pos; lia). replace (p + (0 + 7) / 8) with p by lia. rewrite step_assoc.
    erewrite step_ok by (apply run_io_size). rewrite step_assoc.
    erewrite step_ok by (apply run_io_seek; [reflexivity|lia]). rewrite step_assoc.
    erewrite step_if by (apply run_read_u1; zside). rewrite (proj2 (fits_iff b (blen b - 1) (0 + 8))) by lia. cbv iota beta.
    rewrite step_assoc. erewrite step_ok by (apply run_io_seek; [reflexivity|lia]). rewrite !step_ret. cbn [fst snd].
    rewrite Z.add_0_r. pose proof (ubits_bound b (8 * (blen b - 1)) 8 ltac:(lia)) as Hn. set (n := ubits b (8 * (blen b - 1)) 8) in *.
    rewrite runM_bind, run_read_bytes_var by first [lia | reflexivity | left; apply fits_iff; lia].
    destruct (Z.ltb_spec (blen b - p) n), (Z.ltb_spec (blen b - p - n) 0); try lia; [reflexivity|].
    change (0 / 8) with 0. rewrite Z.add_0_r. destruct (Z.leb_spec (p + (blen b - p - n)) (blen b)); [|lia].
    unfold some, vbytes. rewrite !step_assoc.
    rewrite runM_bind, run_read_bytes_var by first [lia | reflexivity | left; apply fits_iff; lia].
    destruct (Z.ltb_spec n 0); [lia|]. change (0 / 8) with 0. rewrite Z.add_0_r.
    destruct (Z.leb_spec (p + (blen b - p - n) + n) (blen b)); [|lia]. rewrite !step_ret, runM_ret. cbn [rmap opt].
    assert (Hs : slice b (p + (blen b - p - n)) n = rest b (blen b - n)).
    { Transparent slice. unfold slice, rest. Opaque slice. replace (p + (blen b - p - n)) with (blen b - n) by lia.
      apply firstn_all2. rewrite skipn_length. unfold blen in *. lia. }
    rewrite Hs. replace (p + (blen b - p - n) + n) with (blen b) by lia. split; [reflexivity|lia].
  - rewrite step_ret. cbn [fst snd].
    rewrite runM_bind, run_read_bytes_var by first [lia | reflexivity | left; apply fits_iff; lia].
    destruct (Z.ltb_spec (blen b - p) 0), (Z.ltb_spec (blen b - p - 0) 0); try lia.
    change (0 / 8) with 0. rewrite Z.add_0_r. destruct (Z.leb_spec (p + (blen b - p - 0)) (blen b)); [|lia].
    unfold none. rewrite step_ret, runM_ret. cbn [rmap opt]. split; [|lia]. do 3 f_equal. lia.
Qed.

Lemma rtp_meets b : from_bytes (p_RealTimeTransportProtocol rt) b = rtp_spec b.
Proof.
  apply from_bytes_agrees. pose proof (blen_nonneg b) as Hb.
  unfold p_RealTimeTransportProtocol, rtp_spec. rewrite rmap_rbind.
  eapply step_dec; [apply d_rtp_fixed|lia|]. intros v e Hv He. cbn [fst snd].
  destruct (rtp_flags b 0 v e Hv) as [G1 [G2 Hl]]. change (8 * 0 + 3) with 3 in *. change (8 * 0 + 2) with 2 in *.
  unfold flag_of at 1. rewrite G1, step_ret. rewrite rmap_rbind.
  destruct (bit b 3).
  - eapply step_part; [dec_tab|lia|]. intros v0 e0 Hv0 He0. cbn [fst snd].
    apply rtp_tail; [assumption|reflexivity|lia].
  - apply step_nopart. cbn [fst snd]. apply rtp_tail; [assumption|reflexivity|lia].
Qed.
End S.
