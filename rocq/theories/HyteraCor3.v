(** Support for PropHytera2.v: objects opened from streams, explicit forms of HDAP / HRNP / telemetry. *)
From Verif Require Import PyBase Runtime Codec CodecSpec CodecProofs Enums Getters Spec DecSpec BitSpec RuntimeProofs TilesProofs DecProofs DecAlgebra GetterProofs HomebrewCor HyteraModel HyteraSpec HyteraRuns HyteraProofs HyteraProofs2 HyteraProofs3 HyteraCor HyteraCor2.
From Coq Require Import ZifyBool.
Ltac Zify.zify_post_hook ::= Z.div_mod_to_equations.
Open Scope string_scope.
Open Scope list_scope.
Open Scope Z_scope.

Lemma open_dec m f b o : runs_dec m f -> open_object m b = Ok o -> exists cls e, f b 0 = Ok (VObj cls (l_attrs o), e) /\ s_buf (l_io o) = b.
Proof.
  intros H. unfold open_object. pose proof (blen_nonneg b). specialize (H b 0 ltac:(lia)). unfold agrees, runM in H. rewrite <- at_init in H.
  destruct (m (stream_of b)) as [[v|e] s]; [|discriminate]. destruct v as [| | | | | | |cls a]; try discriminate. intros E.
  destruct (f b 0) as [[w e]|y]; [|discriminate]. destruct H as [H _].
  assert (Ew : w = VObj cls a) by congruence. assert (Es : s = at_ b e 0) by congruence. subst.
  assert (o = {| l_attrs := a; l_io := at_ b e 0 |}) as -> by congruence. exists cls, e. split; reflexivity.
Qed.

(** one byte *)
Lemma slice_one b p : 0 <= p -> p < blen b -> slice b p 1 = [zb (ubits b (8 * p) 8)].
Proof.
  intros Hp Hl. rewrite ubits_byte by lia. rewrite zb_bz. Transparent slice. unfold slice. Opaque slice.
  assert (E : (Z.to_nat p < List.length b)%nat) by (unfold blen in Hl; lia). revert E. generalize (Z.to_nat p) as i. clear. intros i. revert b.
  induction i as [|i IH]; intros [|x b] E; cbn in E |- *; try lia; [reflexivity|]. apply IH. lia.
Qed.
Lemma magic_one b p z : 0 <= p -> p < blen b -> 0 <= z < 256 -> bytes_eqb (slice b p 1) (B [z]) = (ubits b (8 * p) 8 =? z).
Proof.
  intros Hp Hl Hz. rewrite slice_one by assumption. pose proof (ubits_bound b (8 * p) 8 ltac:(lia)) as Hu. change (2 ^ 8) with 256 in Hu.
  change (B [z]) with [zb z]. destruct (Z.eqb_spec (ubits b (8 * p) 8) z) as [->|N].
  - apply bytes_eqb_refl.
  - destruct (bytes_eqb _ _) eqn:E; [|reflexivity]. apply bytes_eqb_true in E. assert (E' : zb (ubits b (8 * p) 8) = zb z) by congruence. apply (f_equal bz) in E'.
    rewrite !bz_zb in E' by lia. contradiction.
Qed.

(** ** HDAP *)
Definition hdap_head (b : bytes) (k : Z) : attrs := [("is_reliable_message", VBool (bit b (8 * k))); ("message_header", resolve_enum HyteraDmrApplicationProtocol_MessageHeaderTypes (ubits b (8 * k + 1) 7))].
Lemma hdap_explicit b k : 0 <= k <= blen b -> hdap_at b k =
  if blen b <? k + 1 then Err EOFError
  else let* d := part "data" (select (ubits b (8 * k + 1) 7) hdap_bodies) b (k + 1) in
    if blen b <? snd d + 2 then Err EOFError
    else if ubits b (8 * (snd d + 1)) 8 =? 3
    then Ok (VObj "HyteraDmrApplicationProtocol" (hdap_head b k ++ fst d ++ [("checksum", VInt (ubits b (8 * snd d) 8)); ("message_footer", VBytes (B [3]))]), snd d + 2)
    else Err (ValidationNotEqualError (VBytes (B [3])) (VBytes (slice b (snd d + 1) 1)) "/seq/4").
Proof.
  intros Hk. unfold hdap_at. destruct (Z.ltb_spec (blen b) (k + 1)) as [L|L].
  { unfold L_HyteraDmrApplicationProtocol. rewrite short_table; [reflexivity|eoftable|reflexivity|lia|cbn; lia]. }
  assert (E : fields b k L_HyteraDmrApplicationProtocol = Ok (hdap_head b k)).
  { unfold L_HyteraDmrApplicationProtocol, hdap_head. plain_fields. rewrite Z.add_0_r. reflexivity. }
  rewrite E. cbn [rbind].
  destruct (part "data" (select (ubits b (8 * k + 1) 7) hdap_bodies) b (k + 1)) as [[d n]|x] eqn:P; [|reflexivity]. cbn [rbind fst snd].
  destruct (part_local "data" _ b (k + 1) d n ltac:(lia) (select_local _ _ hdap_bodies_local) P) as [G _].
  unfold L_hdap_trailer. destruct (Z.ltb_spec (blen b) (n + 2)) as [L2|L2].
  - destruct (Z.eq_dec (blen b) n) as [E2|E2].
    + spec_cbn. rewrite (proj2 (fits_niff b n 8)) by lia. reflexivity.
    + spec_cbn. rewrite (proj2 (fits_iff b n 8)) by lia. change (blen (B [3])) with 1. norm_lits. rewrite (proj2 (fits_niff b n 16)) by lia. reflexivity.
  - spec_cbn. rewrite (proj2 (fits_iff b n 8)) by lia. change (blen (B [3])) with 1. norm_lits. rewrite (proj2 (fits_iff b n 16)) by lia. cbv zeta.
    rewrite magic_one by lia. destruct (_ =? 3); [|reflexivity]. cbn [rbind]. rewrite Z.add_0_r. reflexivity.
Qed.

Lemma hdap_inv b k v e : 0 <= k <= blen b -> hdap_at b k = Ok (v, e) ->
  k + 1 <= blen b /\ k + 3 <= e <= blen b /\ ubits b (8 * (e - 1)) 8 = 3 /\ exists d, part "data" (select (ubits b (8 * k + 1) 7) hdap_bodies) b (k + 1) = Ok (d, e - 2) /\ v = VObj "HyteraDmrApplicationProtocol" (hdap_head b k ++ d ++ [("checksum", VInt (ubits b (8 * (e - 2)) 8)); ("message_footer", VBytes (B [3]))]).
Proof.
  intros Hk. rewrite hdap_explicit by assumption. destruct (Z.ltb_spec (blen b) (k + 1)) as [L|L]; [discriminate|].
  destruct (part "data" (select (ubits b (8 * k + 1) 7) hdap_bodies) b (k + 1)) as [[d n]|x] eqn:P; [|discriminate]. cbn [rbind fst snd].
  destruct (part_local "data" _ b (k + 1) d n ltac:(lia) (select_local _ _ hdap_bodies_local) P) as [G _].
  destruct (Z.ltb_spec (blen b) (n + 2)) as [L2|L2]; [discriminate|]. destruct (Z.eqb_spec (ubits b (8 * (n + 1)) 8) 3) as [M|M]; [|discriminate].
  intros E. assert (e = n + 2) as -> by congruence. replace (n + 2 - 1) with (n + 1) by lia. replace (n + 2 - 2) with n by lia.
  split; [lia|]. split; [lia|]. split; [exact M|]. exists d. split; [reflexivity|]. congruence.
Qed.

(** ** location protocol *)
Lemma lp_inv b k v e : 0 <= k <= blen b -> lp_at b k = Ok (v, e) -> exists d, (d = [] \/ exists x, d = [("data", x)]) /\
  v = VObj "LocationProtocol" ([("opcode_header", resolve_enum LocationProtocol_LpSpecificTypes (ubits b (8 * k) 16)); ("message_length", VInt (ubits b (8 * k + 16) 16))] ++ d).
Proof.
  intros Hk. unfold lp_at. unfold L_LocationProtocol. spec_cbn. destruct (fits b k 16); [|discriminate]. destruct (fits b k 32); [|discriminate]. cbn [rmap rbind].
  destruct (select _ lp_bodies) as [f|]; cbn [part].
  - destruct (f b (k + 4)) as [r|]; [|discriminate]. cbn [rbind fst snd]. intros E. exists [("data", fst r)]. split; [right; eexists; reflexivity|]. rewrite Z.add_0_r in E. congruence.
  - cbn [rbind fst snd]. intros E. exists []. split; [left; reflexivity|]. rewrite Z.add_0_r in E. congruence.
Qed.
