(** The lazily parsed body of the data header. *)
From Verif Require Import PyBase Runtime Codec Enums Getters Spec RuntimeProofs EnumProofs EtsiModel EtsiSpec EtsiProofs.
From Coq Require Import ZifyBool.
Ltac Zify.zify_post_hook ::= Z.div_mod_to_equations.
Open Scope string_scope.
Open Scope list_scope.
Open Scope Z_scope.

Section S.
Context (rt : runtime).

(** Tables of unvalidated, untranscoded fields never fail on a packet that is long enough. *)
Definition plain (n : Z) (f : field) : bool :=
  match f_kind f with
  | KNum _ | KFlag | KEnum _ _ | KBytes _ => f_off f + kwidth (f_kind f) <=? n
  | _ => false
  end.
Lemma plain_ok b k n fs : forallb (plain n) fs = true -> 8 * k + n <= 8 * blen b -> exists a, fields b k fs = Ok a.
Proof.
  intros H Hn. induction fs as [|f fs IH]; [eexists; reflexivity|].
  cbn [forallb] in H. apply andb_true_iff in H as [H1 H2]. destruct (IH H2) as [a Ha].
  cbn [fields]. rewrite Ha. clear IH H2 Ha.
  assert (Hd : exists v, decode b k (f_off f) (f_kind f) = Ok v).
  { unfold plain in H1. unfold decode.
    destruct (f_kind f); try discriminate; apply Z.leb_le in H1; rewrite (proj2 (fits_iff _ _ _)) by lia; eauto. }
  destruct Hd as [v ->]. eauto.
Qed.

Lemma data_header_total b : 12 <= blen b -> exists v, data_header_spec b = Ok v.
Proof.
  intros H. unfold data_header_spec. destruct (Z.ltb_spec (blen b) 12); [lia|].
  assert (Hl : blen (slice b 0 12) = 12) by (apply slice_length; lia).
  unfold data_header_bodies, select.
  repeat match goal with |- context [if ?z =? ?c then _ else _] => destruct (z =? c) end; [..|eauto].
  all: unfold object; match goal with |- context [fields ?x 0 ?fs] =>
         destruct (plain_ok x 0 96 fs eq_refl ltac:(lia)) as [a ->] end; eexists; reflexivity.
Qed.

(** * The lazily evaluated [data] *)
Definition header_props (x : string) (o : live) : res pyval * live := DmrDataHeader_data rt o.

(** what every reachable state of the object looks like *)
Definition header_inv (b : bytes) (o : live) : Prop :=
  (exists p, l_io o = {| s_buf := b; s_pos := p; s_bits := 0; s_left := 0 |}) /\
  lookup "data_packet_format" (l_attrs o) = Some (resolve_enum DmrDataHeader_DataPacketFormats (ubits b 4 4)) /\
  (forall v, lookup "_m_data" (l_attrs o) = Some v -> data_header_spec b = Ok v).

Lemma lookup_app x a c : lookup x (a ++ c) = match lookup x a with Some v => Some v | None => lookup x c end.
Proof.
  induction a as [|[n v] a IH]; cbn; [reflexivity|]. destruct (String.eqb x n); auto.
Qed.

Lemma header_compute_ok b p z :
  let s := {| s_buf := b; s_pos := p; s_bits := 0; s_left := 0 |} in
  exists p', data_header_compute rt (resolve_enum DmrDataHeader_DataPacketFormats z) s =
    (if blen b <? 12 then Err EOFError else
     match select z data_header_bodies with
     | Some f => f (slice b 0 12) 0
     | None => Ok (VObj "DmrDataHeader.DataHeaderUndefined" [("bytedata", VBytes (slice b 0 12))]) end,
     {| s_buf := b; s_pos := p'; s_bits := 0; s_left := 0 |}) /\
    (12 <= blen b -> (exists v, fst (data_header_compute rt (resolve_enum DmrDataHeader_DataPacketFormats z) s) = Ok v) -> p' = p).
Proof.
  cbv zeta. unfold data_header_compute. unfold bind at 1 6, io_pos. unfold bind at 1 5, io_seek.
  set (s0 := set_pos _ _).
  assert (Hs0 : s0 = {| s_buf := b; s_pos := 0; s_bits := 0; s_left := 0 |}) by (subst s0; destruct rt; reflexivity).
  clearbody s0. subst s0.
  assert (Hr : read_bytes rt 12 {| s_buf := b; s_pos := 0; s_bits := 0; s_left := 0 |} =
    (if blen b <? 12 then Err EOFError else Ok (slice b 0 12),
     {| s_buf := b; s_pos := if blen b <? 12 then List.length b else 12%nat; s_bits := 0; s_left := 0 |})).
  { Transparent slice. unfold read_bytes, raw_read_bytes, io_read, slice, auto_align, align_state, set_pos. cbn [s_buf s_pos s_bits s_left skipn].
    destruct (Z.ltb_spec 12 0); [lia|]. change (Z.to_nat 12) with 12%nat. change (Z.to_nat 0) with 0%nat. cbn [skipn].
    assert (Hb : blen (firstn 12 b) = Z.min 12 (blen b)) by (unfold blen; rewrite firstn_length; lia).
    assert (Hb2 : List.length (firstn 12 b) = Nat.min 12 (List.length b)) by (rewrite firstn_length; lia).
    unfold blen in *.
    destruct rt; cbn [s_buf s_pos s_bits s_left skipn];
    (destruct (Z.leb_spec (Z.of_nat (List.length b)) 12);
     [destruct (Z.ltb_spec (Z.of_nat (List.length b)) 12); [reflexivity|]; f_equal; [|f_equal; lia]; f_equal; rewrite firstn_all2 by lia; reflexivity
     |rewrite Hb; destruct (Z.ltb_spec (Z.min 12 (Z.of_nat (List.length b))) 12); [lia|]; destruct (Z.ltb_spec (Z.of_nat (List.length b)) 12); [lia|]; rewrite Hb2; f_equal; f_equal; lia]). }
  unfold bind at 1 4. rewrite Hr. destruct (Z.ltb_spec (blen b) 12).
  { eexists. split; [reflexivity|lia]. }
  unfold bind at 1 3, lift. rewrite data_header_body_ok by exact b.
  match goal with |- context [match ?r with Ok a => _ | Err e => (Err e, _) end] => destruct r as [v|e] end.
  - exists p. split; [|reflexivity]. unfold bind, ret. unfold set_pos, auto_align, align_state. destruct rt; cbn; do 3 f_equal; lia.
  - eexists. split; [reflexivity|]. intros _ [v Hv]. discriminate.
Qed.
Opaque slice.

Lemma header_step b o : header_inv b o ->
  let '(r, o') := DmrDataHeader_data rt o in
  r = data_header_spec b /\ header_inv b o' /\ (12 <= blen b -> s_pos (l_io o') = s_pos (l_io o)).
Proof.
  intros [[p Hio] [Hfmt Hm]]. unfold DmrDataHeader_data, memo. cbn [append].
  destruct (lookup "_m_data" (l_attrs o)) as [v|] eqn:Em.
  { split; [symmetry; auto|]. split; [|reflexivity]. split; [exists p; exact Hio|]. split; [assumption|].
    intros v' E. rewrite Em in E. injection E as <-. auto. }
  unfold stored. rewrite Hfmt, Hio. unfold bind at 1, ret at 1.
  destruct (header_compute_ok b p (ubits b 4 4)) as [p' [Hc Hp]].
  rewrite Hc in *. fold (data_header_spec b) in *. cbn [fst] in Hp.
  destruct (data_header_spec b) as [v|e] eqn:Hv; cbn [l_io l_attrs s_pos].
  - split; [reflexivity|]. split; [|intros; apply Hp; eauto].
    split; [eexists; reflexivity|]. split; [cbn [l_attrs]; rewrite lookup_app, Hfmt; reflexivity|].
    intros v'. cbn [l_attrs]. rewrite lookup_app, Em. cbn. congruence.
  - split; [reflexivity|]. split; [|intros H; destruct (data_header_total b H); congruence].
    split; [eexists; reflexivity|]. split; [assumption|]. cbn [l_attrs]. rewrite Em. discriminate.
Qed.

Lemma header_history b ops o : header_inv b o ->
  Forall (fun ob => ob_result ob = data_header_spec b /\ (12 <= blen b -> ob_after ob = ob_before ob)) (history rt header_props ops o).
Proof.
  revert o. induction ops as [|[x|n] ops IH]; intros o Ho; cbn [history]; [constructor| |].
  - unfold header_props at 1. pose proof (header_step b o Ho) as Hs.
    destruct (DmrDataHeader_data rt o) as [r o']. destruct Hs as [H1 [H2 H3]]. constructor; [auto|]. now apply IH.
  - apply IH. destruct Ho as [[p Hio] [H1 H2]]. split; [|split; assumption].
    cbn [l_io]. rewrite Hio. unfold io_seek, set_pos, auto_align, align_state. destruct rt; cbn; eauto.
Qed.

Lemma header_open b o : open_object p_DmrDataHeader b = Ok o -> header_inv b o.
Proof.
  unfold open_object, p_DmrDataHeader. intros H.
  assert (R : runM (obj "DmrDataHeader" [("skip4", vbits 4); ("data_packet_format", venum DmrDataHeader_DataPacketFormats (read_bits 4))]) (stream_of b) =
    if fits b 0 8 then Ok (VObj "DmrDataHeader" [("skip4", VInt (ubits b 0 4)); ("data_packet_format", resolve_enum DmrDataHeader_DataPacketFormats (ubits b 4 4))], at_ b 0 8) else Err EOFError).
  { rewrite at_init. unfold obj. cbn [seq]. unf. do 20 (try rd1; try fit_lia; try fit).
    all: try reflexivity. all: try (symmetry; fit_lia; reflexivity). }
  unfold runM in R.
  destruct (obj _ _ (stream_of b)) as [[v|e] s].
  - destruct (fits b 0 8); [|discriminate]. injection R as -> ->. injection H as <-.
    split; [|split; [reflexivity|discriminate]]. cbn [l_io]. rewrite at_aligned_state by reflexivity. eauto.
  - discriminate.
Qed.
End S.
