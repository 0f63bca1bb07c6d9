(** Properties C01, C07, C13 (see properties.jsonl). *)
From Verif Require Import PyBase Runtime Codec CodecSpec CodecProofs Spec DecSpec BitSpec RuntimeProofs TilesProofs Enums Getters EtsiModel EtsiSpec EtsiProofs Layouts DecAlgebra HyteraModel HyteraSpec HyteraRuns HyteraCor HyteraCor2.
From Coq Require Import ZifyBool.
Ltac Zify.zify_post_hook ::= Z.div_mod_to_equations.
Open Scope string_scope.
Open Scope list_scope.
Open Scope Z_scope.

(** * C01 *)

(** The program: read fields of the given widths one after the other. *)
Fixpoint read_all (ws : list Z) : M (list Z) :=
  match ws with
  | [] => ret []
  | w :: ws' => x <- read_bits w;; l <- read_all ws';; ret (x :: l)
  end.

(** The specification: numbers standing one after the other from bit [o] on. *)
Fixpoint slices (b : bytes) (o : Z) (ws : list Z) : list Z :=
  match ws with [] => [] | w :: ws' => ubits b o w :: slices b (o + w) ws' end.
Definition total (ws : list Z) : Z := fold_right Z.add 0 ws.

(** Writing the numbers back, each in its width. *)
Fixpoint written (ws xs : list Z) : list bool :=
  match ws, xs with w :: ws', x :: xs' => num_bits w x ++ written ws' xs' | _, _ => [] end.

Lemma run_read_bits0 b k c : 0 <= k -> 0 <= c -> fits b k c = true -> runM (read_bits 0) (at_ b k c) = Ok (0, at_ b k c).
Proof.
  intros Hk Hc Hf. Transparent at_. unfold runM, read_bits. cbn [at_ s_left s_bits s_pos s_buf]. unfold at_.
  set (left := (- c) mod 8). assert (Hl : 0 <= left < 8) by (subst left; lia).
  destruct (Z.ltb_spec 0 (0 - left)); [lia|]. replace ((- (0 - left)) mod 8) with left by lia.
  replace (- (0 - left)) with left by lia.
  pose proof (ubits_bound b (8 * k + c) left ltac:(lia)) as Hb.
  rewrite Z.shiftr_div_pow2, Z.div_small by lia. rewrite Z.shiftl_1_l.
  replace (2 ^ left - 1) with (Z.ones left) by (rewrite Z.ones_equiv; lia). rewrite Z.land_ones, Z.mod_small by lia. reflexivity.
  Opaque at_.
Qed.

Lemma run_read_all ws : forall b c, Forall (fun w => 0 <= w) ws -> 0 <= c -> fits b 0 c = true ->
  runM (read_all ws) (at_ b 0 c) = if fits b 0 (c + total ws) then Ok (slices b c ws, at_ b 0 (c + total ws)) else Err EOFError.
Proof.
  induction ws as [|w ws IH]; intros b c Hw Hc Hf; cbn [read_all slices total fold_right].
  - rewrite Z.add_0_r, Hf. reflexivity.
  - inversion Hw as [|? ? H1 H2]; subst. fold (total ws). rewrite runM_bind.
    assert (Ht : 0 <= total ws) by (clear -H2; unfold total; induction H2; cbn [fold_right]; lia).
    assert (E : runM (read_bits w) (at_ b 0 c) = if fits b 0 (c + w) then Ok (ubits b c w, at_ b 0 (c + w)) else Err EOFError).
    { destruct (Z.eq_dec w 0) as [->|Hn].
      - rewrite run_read_bits0 by (assumption || lia). rewrite !Z.add_0_r, Hf. reflexivity.
      - rewrite run_read_bits by (auto; lia). replace (8 * 0 + c) with c by lia. reflexivity. }
    rewrite E. destruct (fits b 0 (c + w)) eqn:F1.
    + rewrite runM_bind, IH by (assumption || lia). rewrite Z.add_assoc. destruct (fits b 0 (c + w + total ws)); reflexivity.
    + rewrite (proj2 (fits_niff _ _ _)); [reflexivity|]. apply fits_niff in F1. lia.
Qed.

Theorem C01_consecutive_slices : forall (b : bytes) (ws : list Z), Forall (fun w => 0 <= w) ws ->
  from_bytes (read_all ws) b = if total ws <=? 8 * blen b then Ok (slices b 0 ws) else Err EOFError.
Proof.
  intros b ws H. rewrite from_bytes_runM, at_init. pose proof (blen_nonneg b). rewrite run_read_all by (assumption || lia || (apply fits_iff; lia)).
  rewrite Z.add_0_l. destruct (fits b 0 (total ws)) eqn:F1.
  - apply fits_iff in F1. destruct (Z.leb_spec (total ws) (8 * blen b)); [reflexivity|lia].
  - apply fits_niff in F1. destruct (Z.leb_spec (total ws) (8 * blen b)); [lia|reflexivity].
Qed.
Print Assumptions C01_consecutive_slices.

(** from any bit offset, reached by whatever reads came before *)
Theorem C01_any_offset : forall (b : bytes) (before ws : list Z), Forall (fun w => 0 <= w) before -> Forall (fun w => 0 <= w) ws ->
  from_bytes (read_all before;;; read_all ws) b =
  if total before + total ws <=? 8 * blen b then Ok (slices b (total before) ws) else Err EOFError.
Proof.
  intros b pre ws H1 H2. rewrite from_bytes_runM, at_init, runM_bind. pose proof (blen_nonneg b).
  assert (Hp : forall l, Forall (fun w => 0 <= w) l -> 0 <= total l) by (clear; intros l H; unfold total; induction H; cbn [fold_right]; lia).
  pose proof (Hp _ H1). pose proof (Hp _ H2).
  rewrite run_read_all by (assumption || lia || (apply fits_iff; lia)). rewrite Z.add_0_l. destruct (fits b 0 (total pre)) eqn:F1.
  - rewrite run_read_all by (assumption || lia). destruct (fits b 0 (total pre + total ws)) eqn:F2.
    + apply fits_iff in F2. destruct (Z.leb_spec (total pre + total ws) (8 * blen b)); [reflexivity|lia].
    + apply fits_niff in F2. destruct (Z.leb_spec (total pre + total ws) (8 * blen b)); [lia|reflexivity].
  - apply fits_niff in F1. destruct (Z.leb_spec (total pre + total ws) (8 * blen b)); [lia|reflexivity].
Qed.
Print Assumptions C01_any_offset.

(** no bit skipped, repeated or taken from a neighbour: written back in their widths the fields are
    the bits of the packet, and each field is in the range of its width *)
Theorem C01_no_bit_lost : forall (ws : list Z) (b : bytes) (o : Z) (xs : list Z), Forall (fun w => 0 <= w) ws ->
  xs = slices b o ws ->
  written ws xs = bits_at b o (total ws) /\ Forall2 (fun w x => 0 <= x < 2 ^ w) ws xs.
Proof.
  induction ws as [|w ws IH]; intros b o xs H ->; cbn [slices written total fold_right].
  - rewrite bits_at_0. split; [reflexivity|constructor].
  - inversion H as [|? ? H1 H2]; subst. fold (total ws).
    assert (Ht : 0 <= total ws) by (clear -H2; unfold total; induction H2; cbn [fold_right]; lia).
    destruct (IH b (o + w) _ H2 eq_refl) as [E1 E2]. rewrite bits_at_app, num_bits_ubits, E1 by assumption. split; [reflexivity|].
    constructor; [apply ubits_bound; assumption|exact E2].
Qed.
Print Assumptions C01_no_bit_lost.

(** the same for the readers of the generated code: any straight-line parser whose actions read the
    fields of a table decodes the table, for any object, under either runtime *)
Example C01_case : from_bytes (read_all [3; 0; 9; 1; 3]) (B [0xA5; 0xC3]) = Ok [5; 0; 92; 0; 3]
  /\ from_bytes (read_all [3; 9; 5]) (B [0xA5; 0xC3]) = Err EOFError.
Proof. split; vm_compute; reflexivity. Qed.

(** * C07 *)
Theorem C07_no_information_lost : forall rt (l : layout), In l (fixed_layouts rt) -> forall (b b' : bytes) (v : pyval),
  blen b = ly_size l -> blen b' = ly_size l ->
  from_bytes (ly_parser l) b = Ok v -> from_bytes (ly_parser l) b' = Ok v -> b = b'.
Proof.
  intros rt l Hin b b' v Hb Hb'. pose proof (proj1 (Forall_forall _ _) (layouts_ok rt) l Hin) as [E [Ht [Ho [Hw Hd]]]].
  rewrite !E. apply (object_inj _ _ (ly_size l)); assumption.
Qed.
Print Assumptions C07_no_information_lost.

(** every bit of the message belongs to exactly one attribute: attributes stand one after the other
    from bit 0 to the last bit of the message, and (flat messages) writing them back gives the packet *)
Theorem C07_every_bit_once : forall rt (l : layout), In l (fixed_layouts rt) ->
  tiles (ly_table l) 0 = true /\ fs_end (ly_table l) 0 = 8 * ly_size l /\
  forall (b : bytes) (v : pyval), from_bytes (ly_parser l) b = Ok v ->
    exists a, v = VObj (ly_class l) a /\ map fst a = map f_name (ly_table l) /\
      (forallb no_sub (ly_table l) = true -> table_bits (ly_table l) a = Some (bits_at b 0 (8 * ly_size l))).
Proof.
  intros rt l Hin. pose proof (proj1 (Forall_forall _ _) (layouts_ok rt) l Hin) as [E [Ht [Ho [Hw Hd]]]].
  split; [exact Ht|]. split; [exact Hw|]. intros b v. rewrite E. unfold object.
  destruct (fields b 0 (ly_table l)) as [a|y] eqn:D; [|discriminate]. cbn [rmap]. intros [= <-]. exists a. split; [reflexivity|]. split.
  - revert a D. generalize (ly_table l). induction l0 as [|f fs IH]; intros a; cbn [fields map].
    + intros [= <-]. reflexivity.
    + destruct (decode b 0 (f_off f) (f_kind f)); [|discriminate]. destruct (fields b 0 fs) as [a'|]; [|discriminate].
      intros [= <-]. cbn [map fst]. rewrite (IH a' eq_refl). reflexivity.
  - intros Hn. pose proof (fields_bits (ly_table l) 0 b 0 a Ht Ho Hn ltac:(lia) D) as R. rewrite Hw, Z.sub_0_r in R. exact R.
Qed.
Print Assumptions C07_every_bit_once.

(** each of the layouts is met by a packet of its size: its constants, and zero elsewhere *)
Definition sample (l : layout) : bytes :=
  flat_map (fun f => match f_kind f with KMagic m _ => m | K => if f_off f mod 8 =? 0 then List.repeat Byte.x00 (Z.to_nat ((kwidth K + 7) / 8)) else List.repeat Byte.x00 (Z.to_nat ((f_off f + kwidth K + 7) / 8 - (f_off f + 7) / 8)) end) (ly_table l).
Example C07_cases : forall rt, Forall (fun l => blen (sample l) = ly_size l /\ exists v, from_bytes (ly_parser l) (sample l) = Ok v) (fixed_layouts rt)
  /\ List.length (fixed_layouts rt) = 100%nat.
Proof.
  intros rt. split; [|reflexivity]. unfold fixed_layouts.
  repeat (apply Forall_cons; [split; [vm_compute; reflexivity|eexists; destruct rt; vm_compute; reflexivity]|]). apply Forall_nil.
Qed.

(** * C13 *)

(** Rate, confirmed or not, and the message CRC of a last block. *)
Record block_class := BlockClass { bc_class : string; bc_parser : runtime -> M pyval; bc_size : Z; bc_confirmed : bool; bc_crc : option (string * Z) }.
Definition crc32 := Some ("message_crc32", 4).
Definition crc16 := Some ("message_crc16", 2).
Definition block_classes : list block_class := [
  BlockClass "DmrData.Rate1Unconfirmed" p_DmrData_Rate1Unconfirmed 24 false None;
  BlockClass "DmrData.Rate1Confirmed" p_DmrData_Rate1Confirmed 24 true None;
  BlockClass "DmrData.Rate1LastBlockUnconfirmed" p_DmrData_Rate1LastBlockUnconfirmed 24 false crc32;
  BlockClass "DmrData.Rate1LastBlockConfirmed" p_DmrData_Rate1LastBlockConfirmed 24 true crc32;
  BlockClass "DmrData.Rate34Unconfirmed" p_DmrData_Rate34Unconfirmed 18 false None;
  BlockClass "DmrData.Rate34Confirmed" p_DmrData_Rate34Confirmed 18 true None;
  BlockClass "DmrData.Rate34LastBlockUnconfirmed" p_DmrData_Rate34LastBlockUnconfirmed 18 false crc32;
  BlockClass "DmrData.Rate34LastBlockConfirmed" p_DmrData_Rate34LastBlockConfirmed 18 true crc32;
  BlockClass "DmrData.Rate12Unconfirmed" p_DmrData_Rate12Unconfirmed 12 false None;
  BlockClass "DmrData.Rate12Confirmed" p_DmrData_Rate12Confirmed 12 true None;
  BlockClass "DmrData.Rate12LastBlockUnconfirmed" p_DmrData_Rate12LastBlockUnconfirmed 12 false crc32;
  BlockClass "DmrData.Rate12LastBlockConfirmed" p_DmrData_Rate12LastBlockConfirmed 12 true crc32;
  BlockClass "DmrData.UdtLastBlock" p_DmrData_UdtLastBlock 12 false crc16].

(** serial number and CRC-9 take the first 16 bits of a confirmed block, the message CRC the last
    bytes of a last block, user data all between *)
Definition head_len (c : block_class) : Z := if bc_confirmed c then 2 else 0.
Definition crc_len (c : block_class) : Z := match bc_crc c with Some (_, n) => n | None => 0 end.
Definition block_attrs (c : block_class) (b : bytes) : attrs :=
  (if bc_confirmed c then [("data_block_serial_number", VInt (ubits b 0 7)); ("crc9", VInt (ubits b 7 9))] else []) ++
  [("user_data", VBytes (slice b (head_len c) (bc_size c - head_len c - crc_len c)))] ++
  match bc_crc c with Some (name, n) => [(name, VBytes (slice b (bc_size c - n) n))] | None => [] end.

Ltac block1 rt b L :=
  cbn [bc_parser bc_size bc_class]; unfold block_attrs, head_len, crc_len; cbn [bc_confirmed bc_crc crc32 crc16 bc_size app];
  etransitivity; [apply (from_bytes_obj _ _ L); seqok|];
  unfold object;
  match goal with |- context [?n <=? blen b] => destruct (Z.leb_spec n (blen b)) as [Hl|Hl] end;
  [ unfold L; cbn [fields decode f_off f_kind f_name kwidth nwidth num rbind rmap]; norm_lits;
    repeat match goal with |- context [fits ?b ?k ?c] => rewrite (proj2 (fits_iff b k c)) by lia end; cbn [rmap]; reflexivity
  | rewrite short_table; [reflexivity|unfold L; eoftable|reflexivity|pose proof (blen_nonneg b); lia|
      let n := eval vm_compute in (fs_end L 0 / 8) in change (fs_end L 0 / 8) with n; lia] ].

Theorem C13_blocks : forall c, In c block_classes -> forall rt (b : bytes),
  from_bytes (bc_parser c rt) b =
  if bc_size c <=? blen b then Ok (VObj (bc_class c) (block_attrs c b)) else Err EOFError.
Proof.
  intros c Hin rt b. revert c Hin. apply Forall_forall. unfold block_classes.
  apply Forall_cons; [block1 rt b L_DmrData_Rate1Unconfirmed|].
  apply Forall_cons; [block1 rt b L_DmrData_Rate1Confirmed|].
  apply Forall_cons; [block1 rt b L_DmrData_Rate1LastBlockUnconfirmed|].
  apply Forall_cons; [block1 rt b L_DmrData_Rate1LastBlockConfirmed|].
  apply Forall_cons; [block1 rt b L_DmrData_Rate34Unconfirmed|].
  apply Forall_cons; [block1 rt b L_DmrData_Rate34Confirmed|].
  apply Forall_cons; [block1 rt b L_DmrData_Rate34LastBlockUnconfirmed|].
  apply Forall_cons; [block1 rt b L_DmrData_Rate34LastBlockConfirmed|].
  apply Forall_cons; [block1 rt b L_DmrData_Rate12Unconfirmed|].
  apply Forall_cons; [block1 rt b L_DmrData_Rate12Confirmed|].
  apply Forall_cons; [block1 rt b L_DmrData_Rate12LastBlockUnconfirmed|].
  apply Forall_cons; [block1 rt b L_DmrData_Rate12LastBlockConfirmed|].
  apply Forall_cons; [block1 rt b L_DmrData_UdtLastBlock|].
  apply Forall_nil.
Qed.
Print Assumptions C13_blocks.

(** the bits of an attribute of a block *)
Definition attr_bits (a : string * pyval) : list bool :=
  match a with
  | (name, VInt z) => num_bits (if String.eqb name "crc9" then 9 else 7) z
  | (_, VBytes l) => bytes_bits l
  | _ => []
  end.

(** the concatenation of the attributes is the block *)
Theorem C13_partition : forall c, In c block_classes -> forall rt (b : bytes) (v : pyval),
  from_bytes (bc_parser c rt) b = Ok v ->
  exists a, v = VObj (bc_class c) a /\ flat_map attr_bits a = bytes_bits (firstn (Z.to_nat (bc_size c)) b).
Proof.
  intros c Hin rt b v. rewrite (C13_blocks c Hin rt b). destruct (Z.leb_spec (bc_size c) (blen b)) as [Hl|Hl]; [|discriminate].
  intros E. exists (block_attrs c b). split; [congruence|]. clear E v.
  change (firstn (Z.to_nat (bc_size c)) b) with (firstn (Z.to_nat (bc_size c)) (skipn (Z.to_nat 0) b)).
  Transparent slice. fold (slice b 0 (bc_size c)). Opaque slice.
  assert (Hs : 0 <= head_len c /\ 0 <= crc_len c /\ head_len c + crc_len c <= bc_size c /\ head_len c = if bc_confirmed c then 2 else 0).
  { revert c Hin Hl. clear. intros c Hin _. revert c Hin. apply Forall_forall. unfold block_classes, head_len, crc_len.
    repeat (apply Forall_cons; [cbn [bc_confirmed bc_crc crc32 crc16 bc_size]; lia|]). apply Forall_nil. }
  destruct Hs as [H0 [H1 [H2 H3]]].
  rewrite bytes_bits_slice by lia. change (8 * 0) with 0.
  assert (E : 8 * bc_size c = 8 * head_len c + (8 * (bc_size c - head_len c - crc_len c) + 8 * crc_len c)) by lia.
  rewrite E, !bits_at_app by lia. rewrite Z.add_0_l.
  unfold block_attrs. rewrite !flat_map_app. f_equal; [|f_equal].
  - rewrite H3. destruct (bc_confirmed c).
    + cbn [flat_map attr_bits String.eqb Ascii.eqb Bool.eqb]. rewrite app_nil_r, !num_bits_ubits by lia.
      change (8 * 2) with (7 + 9). rewrite bits_at_app by lia. reflexivity.
    + change (8 * 0) with 0. rewrite bits_at_0. reflexivity.
  - cbn [flat_map attr_bits]. rewrite app_nil_r. apply bytes_bits_slice; lia.
  - unfold crc_len in *. destruct (bc_crc c) as [[n l]|].
    + cbn [flat_map attr_bits]. rewrite app_nil_r, bytes_bits_slice by lia. f_equal. lia.
    + change (8 * 0) with 0. rewrite bits_at_0. reflexivity.
Qed.
Print Assumptions C13_partition.

Example C13_case : In (BlockClass "DmrData.Rate12LastBlockConfirmed" p_DmrData_Rate12LastBlockConfirmed 12 true crc32) block_classes /\
  from_bytes (p_DmrData_Rate12LastBlockConfirmed V010) (B [0x03; 0x01; 1; 2; 3; 4; 5; 6; 0xde; 0xad; 0xbe; 0xef]) =
  Ok (VObj "DmrData.Rate12LastBlockConfirmed" [("data_block_serial_number", VInt 1); ("crc9", VInt 257);
     ("user_data", VBytes (B [1; 2; 3; 4; 5; 6])); ("message_crc32", VBytes (B [0xde; 0xad; 0xbe; 0xef]))]).
Proof. split; [unfold block_classes; cbn [In]; tauto|vm_compute; reflexivity]. Qed.
