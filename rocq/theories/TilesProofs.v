(** Decoding loses nothing: what a table decodes, written back, is the packet. *)
From Verif Require Import PyBase Runtime Codec CodecSpec CodecProofs Spec BitSpec RuntimeProofs.
From Coq Require Import ZifyBool.
Ltac Zify.zify_post_hook ::= Z.div_mod_to_equations.
Open Scope string_scope.
Open Scope list_scope.
Open Scope Z_scope.

Lemma bits_at_app b o w1 w2 : 0 <= w1 -> 0 <= w2 -> bits_at b o (w1 + w2) = bits_at b o w1 ++ bits_at b (o + w1) w2.
Proof.
  intros H1 H2. unfold bits_at. rewrite Z2Nat.inj_add, seq_app, map_app by lia. f_equal. cbn [Nat.add].
  transitivity (map (fun i => bit b (o + Z.of_nat i)) (List.seq (Z.to_nat w1 + 0)%nat (Z.to_nat w2))); [rewrite Nat.add_0_r; reflexivity|].
  generalize 0%nat as s. generalize (Z.to_nat w2) as n.
  induction n as [|n IH]; intros s; cbn [List.seq map]; [reflexivity|].
  f_equal; [f_equal; lia|]. rewrite <- IH. do 2 f_equal. lia.
Qed.
Lemma bits_at_0 b o : bits_at b o 0 = [].
Proof. reflexivity. Qed.
Lemma bits_at_1 b o : bits_at b o 1 = [bit b o].
Proof. unfold bits_at. change (Z.to_nat 1) with 1%nat. cbn [List.seq map]. rewrite Z.add_0_r. reflexivity. Qed.
Lemma bits_at_len b o w : 0 <= w -> Z.of_nat (List.length (bits_at b o w)) = w.
Proof. intros. unfold bits_at. rewrite map_length, seq_length. lia. Qed.

Lemma num_bits_step w x t : 0 <= w -> num_bits (w + 1) (2 * x + Z.b2z t) = num_bits w x ++ [t].
Proof.
  intros Hw. unfold num_bits. rewrite Z2Nat.inj_add by lia. change (Z.to_nat 1) with 1%nat.
  rewrite seq_app, map_app. cbn [Nat.add List.seq map]. f_equal.
  - apply map_ext_in. intros i Hi. apply in_seq in Hi.
    replace (w + 1 - 1 - Z.of_nat i) with (Z.succ (w - 1 - Z.of_nat i)) by lia.
    rewrite Z.testbit_succ_r by lia. reflexivity.
  - replace (w + 1 - 1 - Z.of_nat (Z.to_nat w)) with 0 by lia. rewrite Z.testbit_0_r. reflexivity.
Qed.

Lemma num_bits_ubits b o w : 0 <= w -> num_bits w (ubits b o w) = bits_at b o w.
Proof.
  intros Hw. rewrite <- (Z2Nat.id w) by assumption. induction (Z.to_nat w) as [|n IH].
  - reflexivity.
  - rewrite Nat2Z.inj_succ. unfold Z.succ. rewrite ubits_app, ubits_1 by lia. change (2 ^ 1) with 2.
    rewrite Z.mul_comm, num_bits_step, IH, bits_at_app, bits_at_1 by lia. reflexivity.
Qed.

Lemma num_bits_mod w z : 0 <= w -> num_bits w (z mod 2 ^ w) = num_bits w z.
Proof.
  intros Hw. unfold num_bits. apply map_ext_in. intros i Hi. apply in_seq in Hi.
  apply Z.mod_pow2_bits_low. lia.
Qed.

Lemma byte_bits_at b p : 0 <= p -> byte_bits (nth (Z.to_nat p) b Byte.x00) = bits_at b (8 * p) 8.
Proof. intros Hp. unfold byte_bits. rewrite <- ubits_byte by assumption. apply num_bits_ubits. lia. Qed.

Lemma bytes_bits_slice b p n : 0 <= p -> 0 <= n -> p + n <= blen b -> bytes_bits (slice b p n) = bits_at b (8 * p) (8 * n).
Proof.
  intros Hp Hn. rewrite <- (Z2Nat.id n) by assumption. induction (Z.to_nat n) as [|k IH]; intros Hle.
  - Transparent slice. unfold slice. reflexivity. Opaque slice.
  - rewrite Nat2Z.inj_succ in *. unfold Z.succ. rewrite slice_snoc by lia.
    unfold bytes_bits in *. rewrite flat_map_app, IH by lia. cbn [flat_map]. rewrite app_nil_r, byte_bits_at by lia.
    replace (8 * (Z.of_nat k + 1)) with (8 * Z.of_nat k + 8) by lia. rewrite bits_at_app by lia.
    do 2 f_equal. lia.
Qed.
Lemma slice_all b : slice b 0 (blen b) = b.
Proof. Transparent slice. unfold slice, blen. rewrite Nat2Z.id. cbn [Z.to_nat skipn]. apply firstn_all. Opaque slice. Qed.
Lemma bytes_bits_all b : bytes_bits b = bits_at b 0 (8 * blen b).
Proof. pose proof (blen_nonneg b). rewrite <- (slice_all b) at 1. rewrite bytes_bits_slice by lia. reflexivity. Qed.

Lemma byte_bits_inj x y : byte_bits x = byte_bits y -> x = y.
Proof.
  intros H. apply bz_inj. apply Z.bits_inj'. intros n Hn.
  destruct (Z_lt_ge_dec n 8) as [Hlt|Hge].
  - assert (E : nth (Z.to_nat (7 - n)) (byte_bits x) false = nth (Z.to_nat (7 - n)) (byte_bits y) false) by (rewrite H; reflexivity).
    unfold byte_bits, num_bits in E. change (Z.to_nat 8) with 8%nat in E. cbn [List.seq map] in E.
    assert (C : n = 0 \/ n = 1 \/ n = 2 \/ n = 3 \/ n = 4 \/ n = 5 \/ n = 6 \/ n = 7) by lia.
    destruct C as [C|[C|[C|[C|[C|[C|[C|C]]]]]]]; subst n; exact E.
  - pose proof (bz_range x). pose proof (bz_range y).
    assert (T : forall z, 0 <= z < 256 -> Z.testbit z n = false).
    { intros z Hz. destruct (Z.eq_dec z 0) as [->|]; [apply Z.bits_0|]. apply Z.bits_above_log2; [lia|].
      apply Z.log2_lt_pow2; [lia|]. assert (2 ^ 8 <= 2 ^ n) by (apply Z.pow_le_mono_r; lia). change (2 ^ 8) with 256 in *. lia. }
    rewrite !T by lia. reflexivity.
Qed.
Lemma byte_bits_len x : List.length (byte_bits x) = 8%nat.
Proof. reflexivity. Qed.
Lemma bytes_bits_inj l : forall l', bytes_bits l = bytes_bits l' -> l = l'.
Proof.
  induction l as [|x l IH]; intros [|y l'] H; [reflexivity|discriminate|discriminate|].
  unfold bytes_bits in *. cbn [flat_map] in H.
  assert (E : firstn 8 (byte_bits x ++ flat_map byte_bits l) = firstn 8 (byte_bits y ++ flat_map byte_bits l')) by (rewrite H; reflexivity).
  assert (E2 : skipn 8 (byte_bits x ++ flat_map byte_bits l) = skipn 8 (byte_bits y ++ flat_map byte_bits l')) by (rewrite H; reflexivity).
  rewrite !firstn_app, !byte_bits_len in E. change (8 - 8)%nat with 0%nat in E. rewrite !firstn_O, !app_nil_r in E.
  rewrite !firstn_all2 in E by (rewrite byte_bits_len; reflexivity).
  rewrite !skipn_app, !byte_bits_len in E2. change (8 - 8)%nat with 0%nat in E2. rewrite !skipn_O in E2. rewrite (skipn_all2 (byte_bits x)), (skipn_all2 (byte_bits y)) in E2 by (rewrite byte_bits_len; reflexivity).
  f_equal; [apply byte_bits_inj; exact E|apply IH; exact E2].
Qed.
(** the bits of a packet determine it *)
Lemma bits_determine b b' : blen b = blen b' -> bits_at b 0 (8 * blen b) = bits_at b' 0 (8 * blen b') -> b = b'.
Proof. intros Hl H. apply bytes_bits_inj. rewrite !bytes_bits_all. exact H. Qed.

Lemma le_bytes_num l : le_bytes (List.length l) (le_num l) = l.
Proof.
  induction l as [|x l IH]; [reflexivity|]. cbn [List.length le_bytes le_num fold_right].
  fold (le_num l). pose proof (bz_range x). pose proof (le_num_range l).
  replace ((bz x + 256 * le_num l) mod 256) with (bz x) by lia. replace ((bz x + 256 * le_num l) / 256) with (le_num l) by lia.
  rewrite IH, zb_bz. reflexivity.
Qed.

(** ** one field *)
(** byte-wise kinds must start at a byte *)
Definition kind_ok (c : Z) (K : kind) : bool :=
  (0 <=? c) && (0 <=? kwidth K) &&
  match K with
  | KNum (NBe _) | KFlag | KEnum _ (NBe _) | KNum NS16 | KEnum _ NS16 => true
  | KNum (NLe n) | KEnum _ (NLe n) => (c mod 8 =? 0)
  | KBytes _ | KStr _ _ | KMagic _ _ | KSub _ _ => (c mod 8 =? 0)
  end.

Lemma fmt_bits_num b k c f : 0 <= k -> 0 <= c -> 0 <= nwidth f -> (match f with NLe _ => c mod 8 = 0 | _ => True end) ->
  fits b k (c + nwidth f) = true -> fmt_bits f (num b k c f) = bits_at b (8 * k + c) (nwidth f).
Proof.
  intros Hk Hc Hw Ha Hf. apply fits_iff in Hf. destruct f as [w|n|]; cbn [fmt_bits num nwidth] in *.
  - apply num_bits_ubits. assumption.
  - assert (Hs : blen (slice b (k + c / 8) n) = n) by (apply slice_length; lia).
    replace (Z.to_nat n) with (List.length (slice b (k + c / 8) n)) by (unfold blen in Hs; lia).
    rewrite le_bytes_num, bytes_bits_slice by lia. f_equal. lia.
  - change 65536 with (2 ^ 16). rewrite num_bits_mod by lia. rewrite <- num_bits_ubits by lia.
    pose proof (ubits_bound b (8 * k + c) 16 ltac:(lia)).
    destruct (_ <? 32768); [reflexivity|]. rewrite <- (num_bits_mod 16 (ubits _ _ _ - _)) by lia.
    f_equal. change (2 ^ 16) with 65536 in *. lia.
Qed.

Lemma decode_bits b k c K v : 0 <= k -> kind_ok c K = true -> (match K with KSub _ _ => False | _ => True end) ->
  decode b k c K = Ok v -> value_bits K v = Some (bits_at b (8 * k + c) (kwidth K)).
Proof.
  intros Hk Ho Hs Hd. unfold kind_ok in Ho. apply andb_true_iff in Ho as [Ho Hal]. apply andb_true_iff in Ho as [Hc Hw].
  apply Z.leb_le in Hc, Hw. unfold decode in Hd. destruct K as [f| |E f|n|e n|l path|w g]; [| | | | | |contradiction].
  all: destruct (fits b k _) eqn:Hf; [|discriminate]; cbn [kwidth] in *.
  - assert (E : v = VInt (num b k c f)) by congruence. subst v. cbn [value_bits]. f_equal. apply fmt_bits_num; try assumption. destruct f; [exact I|lia|exact I].
  - assert (E : v = VBool (bit b (8 * k + c))) by congruence. subst v. rewrite bits_at_1. reflexivity.
  - assert (E' : v = resolve_enum E (num b k c f)) by congruence. subst v. cbn [value_bits].
    replace (wire_value (resolve_enum E (num b k c f))) with (Some (num b k c f)) by (unfold resolve_enum; destruct (en_find _ _); reflexivity).
    cbn [option_map]. f_equal. apply fmt_bits_num; try assumption. destruct f; [exact I|lia|exact I].
  - assert (E : v = VBytes (slice b (k + c / 8) n)) by congruence. subst v. cbn [value_bits]. apply fits_iff in Hf.
    f_equal. rewrite bytes_bits_slice by lia. f_equal. lia.
  - destruct (decode_text e _) as [s|] eqn:Hs'; [|discriminate]. assert (E : v = VStr s) by congruence. subst v.
    cbn [value_bits]. rewrite (decode_encode e _ s Hs'). cbn [option_map]. apply fits_iff in Hf. f_equal. rewrite bytes_bits_slice by lia. f_equal. lia.
  - cbv zeta in Hd. destruct (bytes_eqb _ l) eqn:He; [|discriminate]. assert (E : v = VBytes l) by congruence. subst v.
    cbn [value_bits]. apply fits_iff in Hf.
    assert (El : slice b (k + c / 8) (blen l) = l) by (apply bytes_eqb_true; exact He).
    f_equal. rewrite <- El at 1. pose proof (blen_nonneg l). rewrite bytes_bits_slice by lia. f_equal. lia.
Qed.

(** ** tables *)
Definition no_sub (f : field) : bool := match f_kind f with KSub _ _ => false | _ => true end.
Fixpoint kinds_ok (fs : list field) : bool :=
  match fs with [] => true | f :: fs' => kind_ok (f_off f) (f_kind f) && kinds_ok fs' end.

Lemma fs_end_tiles fs : forall c, tiles fs c = true -> kinds_ok fs = true -> c <= fs_end fs c.
Proof.
  induction fs as [|f fs IH]; intros c Ht Ho; cbn [fs_end]; [lia|].
  cbn [tiles kinds_ok] in *. apply andb_true_iff in Ht as [H1 H2]. apply andb_true_iff in Ho as [O1 O2].
  apply Z.eqb_eq in H1. rewrite H1. specialize (IH _ H2 O2).
  unfold kind_ok in O1. apply andb_true_iff in O1 as [O1 _]. apply andb_true_iff in O1 as [_ O1]. lia.
Qed.

Lemma fields_bits fs : forall c b k a, tiles fs c = true -> kinds_ok fs = true -> forallb no_sub fs = true -> 0 <= k ->
  fields b k fs = Ok a -> table_bits fs a = Some (bits_at b (8 * k + c) (fs_end fs c - c)).
Proof.
  induction fs as [|f fs IH]; intros c b k a Ht Ho Hn Hk H.
  - cbn in *. replace a with (@nil (string * pyval)) by congruence. rewrite Z.sub_diag. reflexivity.
  - cbn [fields tiles kinds_ok forallb fs_end] in *. apply andb_true_iff in Ht as [H1 H2]. apply andb_true_iff in Ho as [O1 O2].
    apply andb_true_iff in Hn as [N1 N2]. apply Z.eqb_eq in H1. rewrite H1 in *.
    destruct (decode b k c (f_kind f)) as [v|e] eqn:Hd; [|discriminate].
    destruct (fields b k fs) as [a'|e] eqn:Hf; [|discriminate].
    assert (E : a = (f_name f, v) :: a') by congruence. subst a. cbn [table_bits]. rewrite String.eqb_refl.
    rewrite (decode_bits b k c (f_kind f) v Hk O1) by (first [assumption | unfold no_sub in N1; destruct (f_kind f); [exact I..|discriminate]]).
    rewrite (IH (c + kwidth (f_kind f)) b k a' H2 O2 N2 Hk Hf).
    pose proof (fs_end_tiles fs _ H2 O2) as Hle. f_equal.
    unfold kind_ok in O1. apply andb_true_iff in O1 as [O1 _]. apply andb_true_iff in O1 as [_ O1].
    rewrite Z.add_assoc. rewrite <- bits_at_app by lia. f_equal. lia.
Qed.

(** ** injectivity, also through nested objects *)
Definition determined (K : kind) : Prop := forall b k c b' k' v, 0 <= k -> 0 <= k' -> kind_ok c K = true ->
  decode b k c K = Ok v -> decode b' k' c K = Ok v -> bits_at b (8 * k + c) (kwidth K) = bits_at b' (8 * k' + c) (kwidth K).

Lemma determined_flat K : (match K with KSub _ _ => False | _ => True end) -> determined K.
Proof.
  intros HK b k c b' k' v H1 H2 Ho D1 D2. apply decode_bits in D1; try assumption. apply decode_bits in D2; try assumption. congruence.
Qed.

Lemma fields_determined fs : Forall (fun f => determined (f_kind f)) fs -> forall c b k b' k' a, tiles fs c = true -> kinds_ok fs = true -> 0 <= k -> 0 <= k' ->
  fields b k fs = Ok a -> fields b' k' fs = Ok a -> bits_at b (8 * k + c) (fs_end fs c - c) = bits_at b' (8 * k' + c) (fs_end fs c - c).
Proof.
  induction 1 as [|f fs Hf Hfs IH]; intros c b k b' k' a Ht Ho Hk Hk' H H'.
  - cbn. rewrite Z.sub_diag. reflexivity.
  - cbn [fields tiles kinds_ok fs_end] in *. apply andb_true_iff in Ht as [H1 H2]. apply andb_true_iff in Ho as [O1 O2].
    apply Z.eqb_eq in H1. rewrite H1 in *.
    destruct (decode b k c (f_kind f)) as [v|e] eqn:Hd; [|discriminate].
    destruct (decode b' k' c (f_kind f)) as [v'|e] eqn:Hd'; [|discriminate].
    destruct (fields b k fs) as [x|e] eqn:Hf1; [|discriminate]. destruct (fields b' k' fs) as [x'|e] eqn:Hf2; [|discriminate].
    assert (E : (f_name f, v) :: x = (f_name f, v') :: x') by congruence.
    assert (v' = v) as -> by congruence. assert (x' = x) as -> by congruence.
    pose proof (fs_end_tiles fs _ H2 O2) as Hle.
    assert (Hw : 0 <= kwidth (f_kind f)) by (unfold kind_ok in O1; apply andb_true_iff in O1 as [O1 _]; apply andb_true_iff in O1 as [_ O1]; lia).
    replace (fs_end fs (c + kwidth (f_kind f)) - c) with (kwidth (f_kind f) + (fs_end fs (c + kwidth (f_kind f)) - (c + kwidth (f_kind f)))) by lia.
    rewrite !bits_at_app by lia. f_equal.
    + eapply Hf; eassumption.
    + rewrite <- !Z.add_assoc. eapply IH; eassumption.
Qed.

Lemma determined_sub w cls fs : Forall (fun f => determined (f_kind f)) fs -> tiles fs 0 = true -> kinds_ok fs = true -> fs_end fs 0 = w ->
  determined (KSub w (object cls fs)).
Proof.
  intros Hd Ht Ho Hw b k c b' k' v Hk Hk' Hc D D'. unfold kind_ok in Hc. cbn [decode kwidth] in *.
  apply andb_true_iff in Hc as [Hc Hal]. apply andb_true_iff in Hc as [Hc _]. unfold object in *.
  destruct (fields b (k + c / 8) fs) as [a|e] eqn:E; [|discriminate]. destruct (fields b' (k' + c / 8) fs) as [a'|e] eqn:E'; [|discriminate].
  cbn [rmap] in *. assert (E2 : VObj cls a = VObj cls a') by congruence. injection E2 as <-.
  pose proof (fields_determined fs Hd 0 b (k + c / 8) b' (k' + c / 8) a Ht Ho ltac:(lia) ltac:(lia) E E') as R.
  rewrite Hw, Z.sub_0_r in R. replace (8 * (k + c / 8) + 0) with (8 * k + c) in R by lia. replace (8 * (k' + c / 8) + 0) with (8 * k' + c) in R by lia. exact R.
Qed.

Ltac determine := repeat match goal with
  | |- Forall _ [] => apply Forall_nil
  | |- Forall _ (_ :: _) => apply Forall_cons
  | |- determined (f_kind (F _ _ ?K)) => change (determined K)
  | |- determined (KSub _ (object _ ?fs)) => apply determined_sub; [unfold fs|reflexivity|reflexivity|reflexivity]
  | |- determined _ => apply determined_flat; exact I
  end.

(** objects of the exact length *)
Lemma object_inj cls fs n b b' v : Forall (fun f => determined (f_kind f)) fs -> tiles fs 0 = true -> kinds_ok fs = true -> fs_end fs 0 = 8 * n ->
  blen b = n -> blen b' = n -> object cls fs b 0 = Ok v -> object cls fs b' 0 = Ok v -> b = b'.
Proof.
  intros Hd Ht Ho Hw Hb Hb' D D'. unfold object in *.
  destruct (fields b 0 fs) as [a|e] eqn:E; [|discriminate]. destruct (fields b' 0 fs) as [a'|e] eqn:E'; [|discriminate].
  cbn [rmap] in *. assert (E2 : VObj cls a = VObj cls a') by congruence. injection E2 as <-.
  pose proof (fields_determined fs Hd 0 b 0 b' 0 a Ht Ho ltac:(lia) ltac:(lia) E E') as R.
  rewrite Hw, Z.sub_0_r in R. apply bits_determine; [congruence|]. rewrite Hb, Hb'. exact R.
Qed.
