(** Lemmas relating the stream runtime to packet slices. *)
From Verif Require Import PyBase Runtime Codec Spec.
From Coq Require Import ZifyBool.
Ltac Zify.zify_post_hook ::= Z.div_mod_to_equations.

(** * Bits *)
Lemma bz_range x : 0 <= bz x < 256.
Proof. destruct x; cbn; lia. Qed.

Lemma bz_inj x y : bz x = bz y -> x = y.
Proof.
  unfold bz. intros H. apply N2Z.inj in H.
  assert (Byte.of_N (Byte.to_N x) = Byte.of_N (Byte.to_N y)) as E by now rewrite H.
  rewrite !Byte.of_to_N in E. congruence.
Qed.

Lemma zb_bz x : zb (bz x) = x.
Proof. destruct x; reflexivity. Qed.

Lemma bz_zb z : 0 <= z < 256 -> bz (zb z) = z.
Proof.
  intros H. unfold bz, zb.
  rewrite Z.mod_small by lia.
  destruct (Byte.of_N (Z.to_N z)) eqn:E.
  - apply Byte.to_of_N in E. rewrite E. lia.
  - exfalso. apply Byte.of_N_None_iff in E. lia.
Qed.

Lemma blen_nonneg b : 0 <= blen b.
Proof. unfold blen. lia. Qed.

Lemma ubits_n_bound b o w : 0 <= ubits_n b o w < 2 ^ Z.of_nat w.
Proof.
  induction w as [|w IH]; [cbn; lia|].
  cbn [ubits_n]. rewrite Nat2Z.inj_succ, Z.pow_succ_r by lia.
  destruct (bit b _); cbn [Z.b2z]; lia.
Qed.

Lemma ubits_bound b o w : 0 <= w -> 0 <= ubits b o w < 2 ^ w.
Proof.
  intros H. unfold ubits. pose proof (ubits_n_bound b o (Z.to_nat w)) as B0.
  now rewrite Z2Nat.id in B0.
Qed.

Lemma ubits_n_app b o w1 w2 :
  ubits_n b o (w1 + w2) = ubits_n b o w1 * 2 ^ Z.of_nat w2 + ubits_n b (o + Z.of_nat w1) w2.
Proof.
  induction w2 as [|w2 IH].
  - rewrite Nat.add_0_r. cbn. lia.
  - rewrite Nat.add_succ_r. cbn [ubits_n]. rewrite IH.
    rewrite Nat2Z.inj_succ, Z.pow_succ_r by lia.
    replace (o + Z.of_nat (w1 + w2)) with (o + Z.of_nat w1 + Z.of_nat w2) by lia.
    ring.
Qed.

Lemma ubits_app b o w1 w2 : 0 <= w1 -> 0 <= w2 ->
  ubits b o (w1 + w2) = ubits b o w1 * 2 ^ w2 + ubits b (o + w1) w2.
Proof.
  intros H1 H2. unfold ubits. rewrite Z2Nat.inj_add by lia.
  rewrite ubits_n_app. now rewrite !Z2Nat.id by lia.
Qed.

Lemma ubits_0 b o : ubits b o 0 = 0.
Proof. reflexivity. Qed.

Lemma ubits_1 b o : ubits b o 1 = Z.b2z (bit b o).
Proof. unfold ubits. change (Z.to_nat 1) with 1%nat. cbn [ubits_n]. change (Z.of_nat 0) with 0. rewrite Z.add_0_r. lia. Qed.

Lemma ubits_hi b o w1 w2 : 0 <= w1 -> 0 <= w2 ->
  Z.shiftr (ubits b o (w1 + w2)) w2 = ubits b o w1.
Proof.
  intros H1 H2. rewrite Z.shiftr_div_pow2 by lia. rewrite ubits_app by lia.
  rewrite Z.div_add_l by lia.
  rewrite Z.div_small; [lia|]. apply ubits_bound; lia.
Qed.

Lemma ubits_lo b o w1 w2 : 0 <= w1 -> 0 <= w2 ->
  Z.land (ubits b o (w1 + w2)) (Z.shiftl 1 w2 - 1) = ubits b (o + w1) w2.
Proof.
  intros H1 H2. rewrite Z.shiftl_1_l.
  replace (2 ^ w2 - 1) with (Z.ones w2) by (rewrite Z.ones_equiv; lia).
  rewrite Z.land_ones by lia. rewrite ubits_app by lia.
  rewrite Z.add_comm, Z.mod_add by lia.
  apply Z.mod_small, ubits_bound; lia.
Qed.

Lemma lor_add_shift lo hi w : 0 <= w -> 0 <= lo < 2 ^ w ->
  Z.lor lo (Z.shiftl hi w) = hi * 2 ^ w + lo.
Proof.
  intros Hw Hlo. rewrite Z.shiftl_mul_pow2 by lia. rewrite Z.lor_comm.
  symmetry. apply Z.bits_inj'. intros n Hn.
  rewrite Z.lor_spec. rewrite <- Z.shiftl_mul_pow2 by lia.
  destruct (Z.ltb_spec n w).
  - rewrite Z.shiftl_spec_low by lia. cbn [orb].
    rewrite Z.shiftl_mul_pow2 by lia.
    rewrite <- (Z.mod_pow2_bits_low (hi * 2 ^ w + lo) w) by lia.
    rewrite Z.add_comm, Z.mod_add by lia.
    rewrite Z.mod_small by lia. reflexivity.
  - rewrite Z.shiftl_spec_high by lia.
    replace (Z.testbit lo n) with false.
    2:{ symmetry. destruct (Z.eq_dec lo 0) as [->|]; [apply Z.bits_0|].
        apply Z.bits_above_log2; [lia|].
        apply Z.log2_lt_pow2; [lia|].
        eapply Z.lt_le_trans; [apply Hlo|]. apply Z.pow_le_mono_r; lia. }
    rewrite orb_false_r.
    rewrite Z.shiftl_mul_pow2 by lia.
    replace n with ((n - w) + w) at 1 by lia.
    rewrite <- Z.div_pow2_bits by lia.
    rewrite Z.div_add_l by lia. rewrite (Z.div_small lo) by lia.
    now rewrite Z.add_0_r.
Qed.

Lemma b2z_testbit_div z i : 0 <= i -> Z.b2z (Z.testbit z i) = (z / 2 ^ i) mod 2.
Proof. intros. rewrite Z.testbit_spec' by lia. reflexivity. Qed.

Lemma ubits_byte b p : 0 <= p -> ubits b (8 * p) 8 = bz (nth (Z.to_nat p) b Byte.x00).
Proof.
  intros Hp. unfold ubits. change (Z.to_nat 8) with 8%nat. cbn [ubits_n].
  unfold bit.
  repeat match goal with |- context [(8 * p + Z.of_nat ?i) / 8] =>
    replace ((8 * p + Z.of_nat i) / 8) with p by lia;
    replace (7 - (8 * p + Z.of_nat i) mod 8) with (7 - Z.of_nat i) by lia end.
  destruct (nth _ b _); reflexivity.
Qed.

Lemma be_int_app l x : be_int (l ++ [x]) = be_int l * 256 + bz x.
Proof.
  unfold be_int. rewrite fold_left_app. cbn [fold_left].
  rewrite Z.lor_comm, lor_add_shift; [|lia|apply bz_range].
  reflexivity.
Qed.

(** * Slices *)
Lemma slice_length b k n : 0 <= k -> 0 <= n -> k + n <= blen b -> blen (slice b k n) = n.
Proof.
  unfold slice, blen. intros. rewrite firstn_length, skipn_length. lia.
Qed.

Lemma slice_snoc b k n : 0 <= k -> 0 <= n -> k + n < blen b ->
  slice b k (n + 1) = slice b k n ++ [nth (Z.to_nat (k + n)) b Byte.x00].
Proof.
  unfold slice, blen. intros Hk Hn H.
  rewrite Z2Nat.inj_add by lia. rewrite Nat.add_1_r.
  rewrite Z2Nat.inj_add by lia.
  set (k' := Z.to_nat k) in *. set (n' := Z.to_nat n) in *.
  assert (Hl : (n' < List.length (skipn k' b))%nat) by (rewrite skipn_length; lia).
  replace (nth (k' + n') b Byte.x00) with (nth n' (skipn k' b) Byte.x00).
  2:{ rewrite <- (firstn_skipn k' b) at 2.
      rewrite app_nth2; rewrite firstn_length; [|lia].
      f_equal. lia. }
  generalize dependent (skipn k' b). clearbody n'. clear. intros l. revert n'.
  induction l as [|x l IH]; intros n' Hl; [cbn in Hl; lia|].
  destruct n'; [reflexivity|]. cbn [firstn nth List.length app] in *.
  f_equal. apply IH. lia.
Qed.

Lemma be_int_slice b k n : 0 <= k -> 0 <= n -> k + n <= blen b ->
  be_int (slice b k n) = ubits b (8 * k) (8 * n).
Proof.
  intros Hk Hn. revert n Hn. apply (natlike_ind (fun n => k + n <= blen b -> be_int (slice b k n) = ubits b (8 * k) (8 * n))).
  - intros _. reflexivity.
  - intros n Hn IH H. unfold Z.succ in *.
    rewrite slice_snoc by lia. rewrite be_int_app, IH by lia.
    replace (8 * (n + 1)) with (8 * n + 8) by ring.
    rewrite ubits_app by lia. replace (8 * k + 8 * n) with (8 * (k + n)) by ring.
    now rewrite ubits_byte by lia.
Qed.

Lemma le_int_num l : le_int l = le_num l.
Proof. unfold le_num. induction l as [|x l IH]; [reflexivity|]. cbn [le_int fold_right]. now rewrite IH. Qed.

Lemma le_num_range l : 0 <= le_num l < 256 ^ blen l.
Proof.
  unfold blen. induction l as [|x l IH]; [cbn; lia|].
  cbn [le_num fold_right List.length]. rewrite Nat2Z.inj_succ, Z.pow_succ_r by lia.
  pose proof (bz_range x). fold (le_num l). lia.
Qed.

(** * Running actions *)
Definition runM {A} (m : M A) (s : stream) : res (A * stream) :=
  match m s with (Ok a, s') => Ok (a, s') | (Err e, _) => Err e end.

Lemma runM_bind {A B} (m : M A) (k : A -> M B) s :
  runM (bind m k) s = match runM m s with Ok (a, s') => runM (k a) s' | Err e => Err e end.
Proof. unfold runM, bind. destruct (m s) as [[a|e] s']; reflexivity. Qed.

Lemma runM_ret {A} (a : A) s : runM (ret a) s = Ok (a, s).
Proof. reflexivity. Qed.

Lemma runM_fail {A} e s : runM (@fail A e) s = Err e.
Proof. reflexivity. Qed.

Lemma runM_lift {A} (r : res A) s : runM (lift r) s = match r with Ok a => Ok (a, s) | Err e => Err e end.
Proof. destruct r; reflexivity. Qed.

Lemma from_bytes_runM {A} (m : M A) b :
  from_bytes m b = match runM m (stream_of b) with Ok (a, _) => Ok a | Err e => Err e end.
Proof. unfold from_bytes, runM. destruct (m _) as [[|] ]; reflexivity. Qed.

(** The stream at bit [c] of a message that starts at byte [k] of buffer [b]. *)
Definition at_ (b : bytes) (k c : Z) : stream :=
  {| s_buf := b;
     s_pos := Z.to_nat (k + (c + 7) / 8);
     s_bits := ubits b (8 * k + c) ((- c) mod 8);
     s_left := (- c) mod 8 |}.

Lemma at_init b : stream_of b = at_ b 0 0.
Proof. reflexivity. Qed.

Lemma at_aligned b k c : c mod 8 = 0 -> at_ b k c = at_ b (k + c / 8) 0.
Proof.
  intros H. unfold at_. f_equal; [f_equal; lia | | lia].
  replace ((-c) mod 8) with 0 by lia. reflexivity.
Qed.

Lemma at_aligned_state b k c : c mod 8 = 0 ->
  at_ b k c = {| s_buf := b; s_pos := Z.to_nat (k + c / 8); s_bits := 0; s_left := 0 |}.
Proof.
  intros H. rewrite at_aligned by assumption. unfold at_. f_equal. f_equal. cbn. lia.
Qed.

Lemma at_rebase b k c j : 0 <= j -> at_ b (k + j) c = at_ b k (8 * j + c).
Proof.
  intros H. unfold at_.
  replace ((- (8 * j + c)) mod 8) with ((- c) mod 8) by lia.
  f_equal; [f_equal; lia|]. f_equal; lia.
Qed.

(** ** raw reads *)
Lemma io_read_spec s n : 0 <= n ->
  io_read n s =
  if Z.of_nat (s_pos s) + n <=? blen (s_buf s)
  then (slice (s_buf s) (Z.of_nat (s_pos s)) n, set_pos s (s_pos s + Z.to_nat n))
  else (rest (s_buf s) (Z.of_nat (s_pos s)),
        set_pos s (s_pos s + (List.length (s_buf s) - s_pos s))).
Proof.
  intros Hn. unfold io_read, slice, rest, blen. rewrite skipn_length, Nat2Z.id.
  destruct (Z.leb_spec (Z.of_nat (s_pos s) + n) (Z.of_nat (List.length (s_buf s)))).
  - destruct (Z.leb_spec (Z.of_nat (List.length (s_buf s) - s_pos s)) n).
    + assert (Z.to_nat n = List.length (s_buf s) - s_pos s)%nat as -> by lia.
      rewrite firstn_all2 by (rewrite skipn_length; lia).
      rewrite skipn_length. reflexivity.
    + rewrite firstn_length, skipn_length. f_equal. f_equal. lia.
  - destruct (Z.leb_spec (Z.of_nat (List.length (s_buf s) - s_pos s)) n); [|lia].
    rewrite skipn_length. reflexivity.
Qed.

Lemma raw_read_spec s n : 0 <= n -> (Z.of_nat (s_pos s) <= blen (s_buf s) \/ 0 < n) ->
  runM (raw_read_bytes n) s =
  if Z.of_nat (s_pos s) + n <=? blen (s_buf s)
  then Ok (slice (s_buf s) (Z.of_nat (s_pos s)) n, set_pos s (s_pos s + Z.to_nat n))
  else Err EOFError.
Proof.
  intros Hn Hp. unfold runM, raw_read_bytes.
  destruct (Z.ltb_spec n 0); [lia|].
  rewrite io_read_spec by lia.
  destruct (Z.leb_spec (Z.of_nat (s_pos s) + n) (blen (s_buf s))).
  - rewrite slice_length by lia. now rewrite Z.ltb_irrefl.
  - unfold rest, blen in *. rewrite skipn_length.
    destruct (Z.ltb_spec (Z.of_nat (List.length (s_buf s) - Z.to_nat (Z.of_nat (s_pos s)))) n); [reflexivity|lia].
Qed.

(** ** bit reads *)
Lemma run_read_bits b k c n : 0 <= k -> 0 <= c -> 0 < n -> (c mod 8 = 0 \/ fits b k c = true) ->
  runM (read_bits n) (at_ b k c) =
  if fits b k (c + n) then Ok (ubits b (8 * k + c) n, at_ b k (c + n)) else Err EOFError.
Proof.
  intros Hk Hc Hn Hin. unfold runM, read_bits.
  cbn [at_ s_left s_bits s_pos s_buf].
  set (left := (- c) mod 8).
  assert (Hl : 0 <= left < 8) by (subst left; lia).
  set (needed := n - left).
  assert (El' : (- needed) mod 8 = (- (c + n)) mod 8) by (subst needed left; lia).
  rewrite El'. set (left' := (- (c + n)) mod 8) in *.
  assert (Hl' : 0 <= left' < 8) by (subst left'; lia).
  unfold fits.
  destruct (Z.ltb_spec 0 needed) as [Hneed|Hneed].
  - set (bn := (needed - 1) / 8 + 1).
    assert (Hbn : 8 * bn = needed + left') by (subst bn left' needed left; lia).
    pose proof (raw_read_spec {| s_buf := b; s_pos := Z.to_nat (k + (c + 7) / 8);
      s_bits := ubits b (8 * k + c) left; s_left := left' |} bn ltac:(lia) ltac:(right; lia)) as R.
    cbn [s_pos s_buf] in R. unfold runM in R.
    assert (Hpos : Z.of_nat (Z.to_nat (k + (c + 7) / 8)) = k + (c + 7) / 8) by lia.
    rewrite Hpos in R.
    assert (E8 : 8 * (k + (c + 7) / 8) = 8 * k + c + left) by (subst left; lia).
    destruct (raw_read_bytes bn _) as [[buf|e] s2].
    + destruct (Z.leb_spec (k + (c + 7) / 8 + bn) (blen b)) as [Hf|Hf]; [|discriminate].
      injection R as -> ->. cbn [s_buf s_pos set_pos].
      destruct (Z.leb_spec (8 * k + (c + n)) (8 * blen b)) as [Hg|Hg]; [|lia].
      rewrite be_int_slice by lia.
      rewrite E8, Hbn.
      do 2 f_equal.
      * rewrite ubits_hi by lia.
        rewrite lor_add_shift; [|lia|apply ubits_bound; lia].
        replace n with (left + needed) by lia. now rewrite ubits_app by lia.
      * unfold at_. fold left'. f_equal.
        -- lia.
        -- rewrite ubits_lo by lia. f_equal. lia.
    + destruct (Z.leb_spec (k + (c + 7) / 8 + bn) (blen b)) as [Hf|Hf]; [discriminate|].
      injection R as ->.
      destruct (Z.leb_spec (8 * k + (c + n)) (8 * blen b)) as [Hg|Hg]; [lia|reflexivity].
  - (* enough buffered bits *)
    destruct (Z.leb_spec (8 * k + (c + n)) (8 * blen b)) as [Hg|Hg].
    + do 2 f_equal.
      * replace left with (n + (- needed)) by lia. rewrite ubits_hi by lia. reflexivity.
      * unfold at_. fold left'.
        assert (left' = - needed) by (subst left' needed left; lia).
        f_equal.
        -- subst left' needed left. lia.
        -- replace left with (n + left') by lia. rewrite ubits_lo by lia. f_equal. lia.
    + exfalso. unfold fits in Hin. subst needed left. lia.
Qed.

Lemma run_read_flag b k c : 0 <= k -> 0 <= c -> (c mod 8 = 0 \/ fits b k c = true) ->
  runM read_flag (at_ b k c) =
  if fits b k (c + 1) then Ok (bit b (8 * k + c), at_ b k (c + 1)) else Err EOFError.
Proof.
  intros. unfold read_flag. rewrite runM_bind, run_read_bits by (assumption || lia).
  destruct (fits b k (c + 1)); [|reflexivity].
  rewrite runM_ret, ubits_1. destruct (bit b _); reflexivity.
Qed.

(** ** byte reads *)
Lemma auto_align_at rt b k c : c mod 8 = 0 -> auto_align rt (at_ b k c) = at_ b k c.
Proof. intros H. rewrite at_aligned_state by assumption. destruct rt; reflexivity. Qed.

Lemma run_align b k c : c mod 8 = 0 -> runM align_to_byte (at_ b k c) = Ok (tt, at_ b k c).
Proof. intros H. rewrite at_aligned_state by assumption. reflexivity. Qed.

Lemma run_align_up b k c : runM align_to_byte (at_ b k c) = Ok (tt, at_ b k (8 * ((c + 7) / 8))).
Proof.
  rewrite (at_aligned_state b k (8 * ((c + 7) / 8))) by lia.
  unfold runM, align_to_byte, align_state, at_. cbn [s_buf s_pos]. do 4 f_equal. lia.
Qed.

(** General form, for a length computed from the packet. *)
Lemma run_read_bytes_var rt b k c n : 0 <= k -> 0 <= c -> c mod 8 = 0 ->
  (fits b k c = true \/ 0 < n) ->
  runM (read_bytes rt n) (at_ b k c) =
  if n <? 0 then Err ValueError
  else if k + c / 8 + n <=? blen b
       then Ok (slice b (k + c / 8) n, at_ b (k + c / 8 + n) 0) else Err EOFError.
Proof.
  intros Hk Hc Hal Hfit.
  change (runM (read_bytes rt n) (at_ b k c))
    with (runM (raw_read_bytes n) (auto_align rt (at_ b k c))).
  rewrite auto_align_at by assumption.
  destruct (Z.ltb_spec n 0) as [Hn|Hn].
  - unfold runM, raw_read_bytes. destruct (Z.ltb_spec n 0); [reflexivity|lia].
  - rewrite at_aligned_state by assumption.
    rewrite raw_read_spec; cbn [s_pos s_buf]; [|lia|unfold fits in Hfit; lia].
    rewrite !Z2Nat.id by lia.
    destruct (Z.leb_spec (k + c / 8 + n) (blen b)); [|reflexivity].
    rewrite (at_aligned_state b (k + c / 8 + n) 0) by reflexivity. unfold set_pos. cbn [s_buf s_bits s_left].
    do 4 f_equal. lia.
Qed.

(** Constant length. *)
Lemma run_read_bytes rt b k c n : 0 <= k -> 0 <= c -> c mod 8 = 0 -> 0 < n ->
  runM (read_bytes rt n) (at_ b k c) =
  if fits b k (c + 8 * n) then Ok (slice b (k + c / 8) n, at_ b k (c + 8 * n)) else Err EOFError.
Proof.
  intros Hk Hc Hal Hn. rewrite run_read_bytes_var by (auto; lia).
  destruct (Z.ltb_spec n 0); [lia|].
  unfold fits.
  destruct (Z.leb_spec (k + c / 8 + n) (blen b)); destruct (Z.leb_spec (8 * k + (c + 8 * n)) (8 * blen b)); try lia; [|reflexivity].
  do 2 f_equal. rewrite (at_aligned b k (c + 8 * n)) by lia. f_equal; lia.
Qed.

Section UInts.
  Variables (rt : runtime) (b : bytes) (k c : Z).
  Hypotheses (Hk : 0 <= k) (Hc : 0 <= c) (Hal : c mod 8 = 0).

  Lemma run_uint (n : Z) (f : bytes -> Z) : 0 < n ->
    runM (x <- read_bytes rt n;; ret (f x)) (at_ b k c) =
    if fits b k (c + 8 * n) then Ok (f (slice b (k + c / 8) n), at_ b k (c + 8 * n)) else Err EOFError.
  Proof.
    intros Hn. rewrite runM_bind, run_read_bytes by assumption.
    destruct (fits _ _ _); reflexivity.
  Qed.

  Lemma be_at n : 0 <= n -> fits b k (c + 8 * n) = true ->
    be_int (slice b (k + c / 8) n) = ubits b (8 * k + c) (8 * n).
  Proof.
    intros Hn Hf. unfold fits in Hf. rewrite be_int_slice by lia. f_equal. lia.
  Qed.

  Ltac u n := intros; rewrite (run_uint n) by lia; cbn [Z.mul]; 
    destruct (fits _ _ _) eqn:Hf; [|reflexivity]; do 2 f_equal.

  Lemma run_read_u1 : runM (read_u1 rt) (at_ b k c) =
    if fits b k (c + 8) then Ok (ubits b (8 * k + c) 8, at_ b k (c + 8)) else Err EOFError.
  Proof.
    unfold read_u1. rewrite (run_uint 1) by lia. change (8 * 1) with 8.
    destruct (fits b k (c + 8)) eqn:Hf; [|reflexivity]. now rewrite be_at by (trivial; lia).
  Qed.
  Lemma run_read_u2be : runM (read_u2be rt) (at_ b k c) =
    if fits b k (c + 16) then Ok (ubits b (8 * k + c) 16, at_ b k (c + 16)) else Err EOFError.
  Proof.
    unfold read_u2be. rewrite (run_uint 2) by lia. change (8 * 2) with 16.
    destruct (fits b k (c + 16)) eqn:Hf; [|reflexivity]. now rewrite be_at by (trivial; lia).
  Qed.
  Lemma run_read_u4be : runM (read_u4be rt) (at_ b k c) =
    if fits b k (c + 32) then Ok (ubits b (8 * k + c) 32, at_ b k (c + 32)) else Err EOFError.
  Proof.
    unfold read_u4be. rewrite (run_uint 4) by lia. change (8 * 4) with 32.
    destruct (fits b k (c + 32)) eqn:Hf; [|reflexivity]. now rewrite be_at by (trivial; lia).
  Qed.
  Lemma run_read_s2be : runM (read_s2be rt) (at_ b k c) =
    if fits b k (c + 16) then Ok (num b k c NS16, at_ b k (c + 16)) else Err EOFError.
  Proof.
    unfold read_s2be. rewrite (run_uint 2) by lia. change (8 * 2) with 16.
    destruct (fits b k (c + 16)) eqn:Hf; [|reflexivity]. unfold num. now rewrite be_at by (trivial; lia).
  Qed.
  Lemma run_read_u2le : runM (read_u2le rt) (at_ b k c) =
    if fits b k (c + 16) then Ok (num b k c (NLe 2), at_ b k (c + 16)) else Err EOFError.
  Proof.
    unfold read_u2le. rewrite (run_uint 2) by lia. change (8 * 2) with 16.
    destruct (fits b k (c + 16)) eqn:Hf; [|reflexivity]. unfold num. now rewrite le_int_num.
  Qed.
  Lemma run_read_u4le : runM (read_u4le rt) (at_ b k c) =
    if fits b k (c + 32) then Ok (num b k c (NLe 4), at_ b k (c + 32)) else Err EOFError.
  Proof.
    unfold read_u4le. rewrite (run_uint 4) by lia. change (8 * 4) with 32.
    destruct (fits b k (c + 32)) eqn:Hf; [|reflexivity]. unfold num. now rewrite le_int_num.
  Qed.
End UInts.

Lemma run_read_bytes_full rt b k c : 0 <= k -> 0 <= c -> c mod 8 = 0 -> fits b k c = true ->
  runM (read_bytes_full rt) (at_ b k c) = Ok (rest b (k + c / 8), at_ b (blen b) 0).
Proof.
  intros Hk Hc Hal Hf. unfold runM, read_bytes_full. rewrite auto_align_at by assumption.
  rewrite at_aligned_state by assumption. cbn [s_pos s_buf].
  rewrite (at_aligned_state b (blen b) 0) by reflexivity.
  unfold set_pos, rest. cbn [s_pos s_buf s_bits s_left]. do 4 f_equal.
  rewrite skipn_length. unfold fits, blen in *. lia.
Qed.

Lemma run_is_eof rt b k c : 0 <= k -> 0 <= c -> c mod 8 = 0 ->
  runM (is_eof rt) (at_ b k c) = Ok (blen b <=? k + c / 8, at_ b k c).
Proof.
  intros Hk Hc Hal. rewrite at_aligned_state by assumption.
  unfold runM, is_eof. cbn [s_left].
  change (0 <? 0) with false. cbv iota.
  destruct rt.
  - unfold io_read. cbn [s_pos s_buf].
    destruct (skipn (Z.to_nat (k + c / 8)) b) as [|x l] eqn:E.
    + cbn [blen List.length Z.of_nat]. change (0 <=? 1) with true. cbn [fst].
      unfold set_pos; cbn [s_pos s_buf s_bits s_left List.length].
      rewrite Nat.add_0_r.
      assert (List.length b <= Z.to_nat (k + c / 8))%nat.
      { assert (List.length (skipn (Z.to_nat (k + c / 8)) b) = 0%nat) as L by now rewrite E.
        rewrite skipn_length in L. lia. }
      destruct (Z.leb_spec (blen b) (k + c / 8)); unfold blen in *; [reflexivity|lia].
    + assert (Z.to_nat (k + c / 8) < List.length b)%nat.
      { assert (List.length (skipn (Z.to_nat (k + c / 8)) b) <> 0%nat) as L by now rewrite E.
        rewrite skipn_length in L. lia. }
      destruct (Z.leb_spec (blen b) (k + c / 8)); unfold blen in *; [lia|].
      destruct (Z.of_nat (Datatypes.length (x :: l)) <=? 1); [reflexivity|].
      change (Z.to_nat 1) with 1%nat. reflexivity.
  - cbn [s_pos s_buf]. do 2 f_equal. unfold blen.
    destruct (Nat.leb_spec (List.length b) (Z.to_nat (k + c / 8))), (Z.leb_spec (Z.of_nat (List.length b)) (k + c / 8)); lia || reflexivity.
Qed.

Lemma run_io_size b k c : runM io_size (at_ b k c) = Ok (blen b, at_ b k c).
Proof. reflexivity. Qed.

Lemma run_io_pos b k c : 0 <= k -> 0 <= c -> runM io_pos (at_ b k c) = Ok (k + (c + 7) / 8, at_ b k c).
Proof. intros. unfold runM, io_pos. cbn [at_ s_pos]. rewrite Z2Nat.id by lia. reflexivity. Qed.

Lemma run_io_seek rt b k c n : c mod 8 = 0 -> 0 <= n ->
  runM (io_seek rt n) (at_ b k c) = Ok (tt, at_ b n 0).
Proof.
  intros Hal Hn. unfold runM, io_seek. rewrite auto_align_at by assumption.
  rewrite at_aligned_state by assumption. rewrite (at_aligned_state b n 0) by reflexivity.
  unfold set_pos. cbn [s_buf s_bits s_left]. do 4 f_equal. change (0 / 8) with 0. lia.
Qed.

Global Opaque ubits slice at_ fits.

(** * Straight-line structures *)

Lemma fits_mono b k c c' : c' <= c -> fits b k c = true -> fits b k c' = true.
Proof. Transparent fits. unfold fits. lia. Opaque fits. Qed.

(** Action [m] reads a field of kind [K] at bit [c] of any message. *)
Definition runs_at (m : M pyval) (c : Z) (K : kind) : Prop :=
  forall b k, 0 <= k -> (c mod 8 = 0 \/ fits b k c = true) ->
    runM m (at_ b k c) = match decode b k c K with
                         | Ok v => Ok (v, at_ b k (c + kwidth K))
                         | Err e => Err e
                         end
    /\ (forall v, decode b k c K = Ok v -> fits b k (c + kwidth K) = true).

Inductive seq_ok : Z -> list (string * M pyval) -> list field -> Prop :=
| seq_nil c : seq_ok c [] []
| seq_cons c n m f l fs :
    n = f_name f -> f_off f = c -> runs_at m c (f_kind f) ->
    seq_ok (c + kwidth (f_kind f)) l fs -> seq_ok c ((n, m) :: l) (f :: fs).

Lemma run_seq l fs c : seq_ok c l fs -> forall b k, 0 <= k -> (c mod 8 = 0 \/ fits b k c = true) ->
  runM (seq l) (at_ b k c) = match fields b k fs with
                             | Ok a => Ok (a, at_ b k (fs_end fs c))
                             | Err e => Err e
                             end
  /\ (forall a, fields b k fs = Ok a -> fs = [] \/ fits b k (fs_end fs c) = true).
Proof.
  induction 1 as [c|c n m f l fs -> <- Hm Hl IH]; intros b k Hk Hfit.
  - split; [reflexivity|]. auto.
  - cbn [seq fields fs_end]. destruct (Hm b k Hk Hfit) as [E1 E2].
    rewrite runM_bind, E1.
    destruct (decode b k (f_off f) (f_kind f)) as [v|e]; [|split; [reflexivity|discriminate]].
    specialize (E2 v eq_refl).
    destruct (IH b k Hk (or_intror E2)) as [F1 F2].
    rewrite runM_bind, F1.
    destruct (fields b k fs) as [a|e]; [|split; [reflexivity|discriminate]].
    split; [reflexivity|]. intros _ _. right.
    destruct (F2 a eq_refl) as [->|F3]; [exact E2|exact F3].
Qed.

Section RunsAt.
  Variable rt : runtime.
  Ltac go lem := let b := fresh "b" in let k := fresh "k" in intros b k Hk Hfit;
    cbn [decode kwidth nwidth]; change (8 * 2) with 16; change (8 * 4) with 32;
    rewrite ?runM_bind, lem by (assumption || lia);
    match goal with |- context [fits b k ?x] => destruct (fits b k x) eqn:? end;
    cbv iota beta; rewrite ?runM_ret; (split; [reflexivity|try discriminate; auto]).

  Lemma runs_bits c n : 0 <= c -> 0 < n -> runs_at (vbits n) c (U n).
  Proof. intros Hc Hn. unfold vbits, vint. go run_read_bits. Qed.
  Lemma runs_flag c : 0 <= c -> runs_at vflag c KFlag.
  Proof. intros Hc. unfold vflag. go run_read_flag. Qed.
  Lemma runs_ebits E c n : 0 <= c -> 0 < n -> runs_at (venum E (read_bits n)) c (Enm E n).
  Proof. intros Hc Hn. unfold venum. go run_read_bits. Qed.
  Lemma runs_u1 c : 0 <= c -> c mod 8 = 0 -> runs_at (vint (read_u1 rt)) c (U 8).
  Proof. intros Hc Hal. unfold vint. go run_read_u1. Qed.
  Lemma runs_u2be c : 0 <= c -> c mod 8 = 0 -> runs_at (vint (read_u2be rt)) c (U 16).
  Proof. intros Hc Hal. unfold vint. go run_read_u2be. Qed.
  Lemma runs_u4be c : 0 <= c -> c mod 8 = 0 -> runs_at (vint (read_u4be rt)) c (U 32).
  Proof. intros Hc Hal. unfold vint. go run_read_u4be. Qed.
  Lemma runs_s2be c : 0 <= c -> c mod 8 = 0 -> runs_at (vint (read_s2be rt)) c (KNum NS16).
  Proof. intros Hc Hal. unfold vint. go run_read_s2be. Qed.
  Lemma runs_u2le c : 0 <= c -> c mod 8 = 0 -> runs_at (vint (read_u2le rt)) c (LE 2).
  Proof. intros Hc Hal. unfold vint. go run_read_u2le. Qed.
  Lemma runs_u4le c : 0 <= c -> c mod 8 = 0 -> runs_at (vint (read_u4le rt)) c (LE 4).
  Proof. intros Hc Hal. unfold vint. go run_read_u4le. Qed.
  Lemma runs_eu1 E c : 0 <= c -> c mod 8 = 0 -> runs_at (venum E (read_u1 rt)) c (Enm E 8).
  Proof. intros Hc Hal. unfold venum. go run_read_u1. Qed.
  Lemma runs_eu2be E c : 0 <= c -> c mod 8 = 0 -> runs_at (venum E (read_u2be rt)) c (Enm E 16).
  Proof. intros Hc Hal. unfold venum. go run_read_u2be. Qed.
  Lemma runs_eu4be E c : 0 <= c -> c mod 8 = 0 -> runs_at (venum E (read_u4be rt)) c (Enm E 32).
  Proof. intros Hc Hal. unfold venum. go run_read_u4be. Qed.
  Lemma runs_eu2le E c : 0 <= c -> c mod 8 = 0 -> runs_at (venum E (read_u2le rt)) c (EnmLE E 2).
  Proof. intros Hc Hal. unfold venum. go run_read_u2le. Qed.
  Lemma runs_eu4le E c : 0 <= c -> c mod 8 = 0 -> runs_at (venum E (read_u4le rt)) c (EnmLE E 4).
  Proof. intros Hc Hal. unfold venum. go run_read_u4le. Qed.
  Lemma runs_bytes c n : 0 <= c -> c mod 8 = 0 -> 0 < n -> runs_at (vbytes rt n) c (KBytes n).
  Proof. intros Hc Hal Hn. unfold vbytes. go run_read_bytes. Qed.
  Lemma runs_str e c n : 0 <= c -> c mod 8 = 0 -> 0 < n -> runs_at (vstr rt e n) c (KStr e n).
  Proof.
    intros Hc Hal Hn b k Hk Hfit. unfold vstr, read_str. cbn [decode kwidth].
    rewrite !runM_bind, run_read_bytes by (assumption || lia).
    destruct (fits b k (c + 8 * n)) eqn:Hf; [|split; [reflexivity|discriminate]].
    rewrite runM_lift. unfold py_decode.
    destruct (decode_text e _); (split; [reflexivity|try discriminate; auto]).
  Qed.
  Lemma bytes_eqb_true x y : bytes_eqb x y = true -> x = y.
  Proof.
    revert y. induction x as [|a x IH]; intros [|d y]; cbn; try discriminate; [reflexivity|].
    intros H. apply andb_true_iff in H as [H1 H2]. f_equal; [|auto].
    apply Byte.byte_dec_bl. exact H1.
  Qed.
  Lemma bytes_eqb_refl x : bytes_eqb x x = true.
  Proof.
    induction x as [|a x IH]; cbn; [reflexivity|]. rewrite IH.
    rewrite Byte.byte_dec_lb; reflexivity.
  Qed.
  Lemma runs_magic l p c : 0 <= c -> c mod 8 = 0 -> 0 < blen l -> runs_at (expect_bytes rt l p) c (KMagic l p).
  Proof.
    intros Hc Hal Hn b k Hk Hfit. unfold expect_bytes. cbn [decode kwidth].
    rewrite !runM_bind, run_read_bytes by (assumption || lia).
    destruct (fits b k (c + 8 * blen l)) eqn:Hf; [|split; [reflexivity|discriminate]].
    cbv zeta. destruct (bytes_eqb (slice b (k + c / 8) (blen l)) l) eqn:E.
    - apply bytes_eqb_true in E. rewrite E. split; auto.
    - split; [reflexivity|discriminate].
  Qed.
  Lemma runs_aligned m c K : c mod 8 = 0 -> runs_at m c K -> runs_at (aligned m) c K.
  Proof.
    intros Hal H b k Hk Hfit. unfold aligned. rewrite runM_bind, run_align by assumption. now apply H.
  Qed.
  Lemma runs_obj cls l fs c : 0 <= c -> c mod 8 = 0 -> fs <> [] -> seq_ok 0 l fs ->
    runs_at (obj cls l) c (KSub (fs_end fs 0) (object cls fs)).
  Proof.
    intros Hc Hal Hne Hs b k Hk Hfit. cbn [decode kwidth]. unfold obj, object.
    rewrite runM_bind. rewrite at_aligned by assumption.
    destruct (run_seq l fs 0 Hs b (k + c / 8) ltac:(lia) ltac:(left; reflexivity)) as [E1 E2].
    rewrite E1. destruct (fields b (k + c / 8) fs) as [a|e]; cbn [rmap]; [|split; [reflexivity|discriminate]].
    destruct (E2 a eq_refl) as [E3|E3]; [contradiction|].
    split.
    - rewrite runM_ret. do 2 f_equal. rewrite at_rebase by lia. f_equal. lia.
    - intros _ _. revert E3. Transparent fits. unfold fits. lia.
  Qed.
End RunsAt.

(** The object of a straight-line class, parsed stand-alone. *)
Lemma from_bytes_obj cls l fs : seq_ok 0 l fs -> forall b, from_bytes (obj cls l) b = object cls fs b 0.
Proof.
  intros H b. rewrite from_bytes_runM, at_init. unfold obj, object. rewrite runM_bind.
  destruct (run_seq l fs 0 H b 0 ltac:(lia) ltac:(left; reflexivity)) as [E1 _]. rewrite E1.
  destruct (fields b 0 fs); reflexivity.
Qed.

Global Opaque fits.

Lemma fits_0 b k : k <= blen b -> fits b k 0 = true.
Proof. Transparent fits. unfold fits. lia. Qed.
Lemma fits_iff b k c : fits b k c = true <-> 8 * k + c <= 8 * blen b.
Proof. unfold fits. lia. Qed.
Lemma fits_niff b k c : fits b k c = false <-> 8 * blen b < 8 * k + c.
Proof. unfold fits. lia. Qed.
Global Opaque fits.

(** * Proof automation *)
Ltac is_plit p := match p with xH => idtac | xO ?q => is_plit q | xI ?q => is_plit q end.
Ltac is_zlit z := match z with Z0 => idtac | Zpos ?p => is_plit p | Zneg ?p => is_plit p end.

(** evaluate arithmetic on literals *)
Ltac norm_lits :=
  repeat match goal with
  | |- context [?f ?x ?y] =>
      match f with Z.add => idtac | Z.sub => idtac | Z.mul => idtac | Z.div => idtac | Z.modulo => idtac end;
      is_zlit x; is_zlit y;
      let r := eval vm_compute in (f x y) in change (f x y) with r
  end.

Ltac fits_lia := match goal with |- fits ?b ?k ?c = true => apply fits_iff; pose proof (blen_nonneg b); repeat match goal with H : fits _ _ _ = true |- _ => apply fits_iff in H | H : fits _ _ _ = false |- _ => apply fits_niff in H end; lia end.
Ltac zside := first [ assumption | fits_lia | reflexivity | lia | (left; reflexivity) | (right; assumption) | (split; zside) ].

(** prove [runs_at m c K] for literal [c] *)
Create HintDb runs.
Ltac runs1 :=
  match goal with
  | |- runs_at (vbits _) _ _ => apply runs_bits; lia
  | |- runs_at vflag _ _ => apply runs_flag; lia
  | |- runs_at (venum _ (read_bits _)) _ _ => apply runs_ebits; lia
  | |- runs_at (vint (read_u1 _)) _ _ => apply runs_u1; [lia|reflexivity]
  | |- runs_at (vint (read_u2be _)) _ _ => apply runs_u2be; [lia|reflexivity]
  | |- runs_at (vint (read_u4be _)) _ _ => apply runs_u4be; [lia|reflexivity]
  | |- runs_at (vint (read_s2be _)) _ _ => apply runs_s2be; [lia|reflexivity]
  | |- runs_at (vint (read_u2le _)) _ _ => apply runs_u2le; [lia|reflexivity]
  | |- runs_at (vint (read_u4le _)) _ _ => apply runs_u4le; [lia|reflexivity]
  | |- runs_at (venum _ (read_u1 _)) _ _ => apply runs_eu1; [lia|reflexivity]
  | |- runs_at (venum _ (read_u2be _)) _ _ => apply runs_eu2be; [lia|reflexivity]
  | |- runs_at (venum _ (read_u4be _)) _ _ => apply runs_eu4be; [lia|reflexivity]
  | |- runs_at (venum _ (read_u2le _)) _ _ => apply runs_eu2le; [lia|reflexivity]
  | |- runs_at (venum _ (read_u4le _)) _ _ => apply runs_eu4le; [lia|reflexivity]
  | |- runs_at (vbytes _ _) _ _ => apply runs_bytes; [lia|reflexivity|lia]
  | |- runs_at (vstr _ _ _) _ _ => apply runs_str; [lia|reflexivity|lia]
  | |- runs_at (expect_bytes _ _ _) _ _ => apply runs_magic; [lia|reflexivity|reflexivity]
  | |- runs_at (aligned _) _ _ => apply runs_aligned; [reflexivity|runs1]
  | |- _ => solve [auto with runs]
  end.

Ltac seqok1 :=
  lazymatch goal with
  | |- seq_ok _ [] [] => apply seq_nil
  | |- seq_ok ?c _ _ =>
      let c' := eval vm_compute in c in
      lazymatch goal with |- seq_ok _ ?l ?fs => change (seq_ok c' l fs) end;
      apply seq_cons; cbn [f_name f_off f_kind]; [reflexivity|reflexivity|runs1|seqok1]
  end.
(** prove [seq_ok 0 readers table] *)
Ltac seqok := match goal with |- seq_ok ?c ?l ?fs => let l' := eval hnf in l in let fs' := eval hnf in fs in change (seq_ok c l' fs') end; seqok1.

(** ** Stepping through binds *)
Lemma step_ok {A B} (m : M A) (k : A -> M B) s a s' :
  runM m s = Ok (a, s') -> runM (bind m k) s = runM (k a) s'.
Proof. intros H. now rewrite runM_bind, H. Qed.

Lemma step_if {A B} (m : M A) (k : A -> M B) s (c : bool) a s' e :
  runM m s = (if c then Ok (a, s') else Err e) ->
  runM (bind m k) s = if c then runM (k a) s' else Err e.
Proof. intros H. rewrite runM_bind, H. destruct c; reflexivity. Qed.

Lemma step_assoc {A B C} (m : M A) (f : A -> M B) (g : B -> M C) s :
  runM (bind (bind m f) g) s = runM (bind m (fun a => bind (f a) g)) s.
Proof. rewrite !runM_bind. destruct (runM m s) as [[a s']|e]; [now rewrite runM_bind|reflexivity]. Qed.

Lemma step_ret {A B} (a : A) (k : A -> M B) s : runM (bind (ret a) k) s = runM (k a) s.
Proof. reflexivity. Qed.

Lemma step_fail {A B} e (k : A -> M B) s : runM (bind (fail e) k) s = Err e.
Proof. reflexivity. Qed.

Lemma step_lift {A B} (r : res A) (k : A -> M B) s :
  runM (bind (lift r) k) s = match r with Ok a => runM (k a) s | Err e => Err e end.
Proof. rewrite runM_bind. destruct r; reflexivity. Qed.

Lemma step_runs {B} m (k : pyval -> M B) b kk c K : runs_at m c K -> 0 <= kk -> (c mod 8 = 0 \/ fits b kk c = true) ->
  runM (bind m k) (at_ b kk c) =
  match decode b kk c K with
  | Ok v => if fits b kk (c + kwidth K) then runM (k v) (at_ b kk (c + kwidth K)) else Err EOFError
  | Err e => Err e
  end.
Proof.
  intros H Hk Hf. destruct (H b kk Hk Hf) as [E1 E2]. rewrite runM_bind, E1.
  destruct (decode b kk c K) as [v|e]; [|reflexivity]. now rewrite (E2 v eq_refl).
Qed.

Global Opaque fits.

(** rewrite the head action of [runM (bind m k) (at_ b kk c)] *)
Ltac rd1 :=
  lazymatch goal with
  | |- context [runM (bind (bind _ _) _) _] => rewrite step_assoc
  | |- context [runM (bind (ret _) _) _] => rewrite step_ret
  | |- context [runM (bind (fail _) _) _] => rewrite step_fail
  | |- context [runM (bind (lift _) _) _] => rewrite step_lift
  | |- context [runM (bind align_to_byte _) (at_ _ _ _)] => erewrite step_ok by (apply run_align; zside)
  | |- context [runM (bind read_flag _) (at_ _ _ _)] => erewrite step_if by (apply run_read_flag; zside)
  | |- context [runM (bind (read_bits _) _) (at_ _ _ _)] => erewrite step_if by (apply run_read_bits; zside)
  | |- context [runM (bind (read_u1 _) _) (at_ _ _ _)] => erewrite step_if by (apply run_read_u1; zside)
  | |- context [runM (bind (read_u2be _) _) (at_ _ _ _)] => erewrite step_if by (apply run_read_u2be; zside)
  | |- context [runM (bind (read_u4be _) _) (at_ _ _ _)] => erewrite step_if by (apply run_read_u4be; zside)
  | |- context [runM (bind (read_s2be _) _) (at_ _ _ _)] => erewrite step_if by (apply run_read_s2be; zside)
  | |- context [runM (bind (read_u2le _) _) (at_ _ _ _)] => erewrite step_if by (apply run_read_u2le; zside)
  | |- context [runM (bind (read_u4le _) _) (at_ _ _ _)] => erewrite step_if by (apply run_read_u4le; zside)
  | |- context [runM (bind (read_bytes _ ?n) _) (at_ _ _ _)] => is_zlit n; erewrite step_if by (apply run_read_bytes; zside)
  | |- context [runM (bind (read_bytes_full _) _) (at_ _ _ _)] => erewrite step_ok by (apply run_read_bytes_full; zside)
  | |- context [runM (bind (is_eof _) _) (at_ _ _ _)] => erewrite step_ok by (apply run_is_eof; zside)
  | |- context [runM (bind io_size _) (at_ _ _ _)] => erewrite step_ok by (apply run_io_size; zside)
  | |- context [runM (bind io_pos _) (at_ _ _ _)] => erewrite step_ok by (apply run_io_pos; zside)
  | |- context [runM (bind (io_seek _ _) _) (at_ _ _ _)] => erewrite step_ok by (apply run_io_seek; zside)
  | |- context [runM (ret _) _] => rewrite runM_ret
  end; cbv beta; norm_lits.

(** case split on a [fits] test that guards the goal *)
Ltac fit :=
  match goal with
  | H : fits ?b ?k ?c = _ |- context [fits ?b ?k ?c] => rewrite H; cbv iota beta
  | |- context [if fits ?b ?k ?c then runM _ _ else _] => let Hf := fresh "Hf" in destruct (fits b k c) eqn:Hf; cbv iota beta; [|try reflexivity]
  end.

Lemma fits_eq b k c k' c' : 8 * k + c = 8 * k' + c' -> fits b k c = fits b k' c'.
Proof. Transparent fits. unfold fits. now intros ->. Opaque fits. Qed.

(** express literal message bases and [k + j] bases by an offset from base 0 / [k] *)
Ltac fits_norm :=
  repeat match goal with
  | |- context [fits ?b ?k ?c] => is_zlit k; is_zlit c; lazymatch k with Z0 => fail | _ => idtac end;
      let r := eval vm_compute in (8 * k + c) in rewrite (fits_eq b k c 0 r) by reflexivity
  | |- context [fits ?b (?k + ?j) ?c] => is_zlit j; is_zlit c;
      let r := eval vm_compute in (8 * j + c) in rewrite (fits_eq b (k + j) c k r) by lia
  end.

Ltac fitany := fits_norm; 
  match goal with |- context [if fits ?b ?k ?c then _ else _] => let Hf := fresh "Hf" in destruct (fits b k c) eqn:Hf; cbv iota beta end.

(** decide a [fits] test by arithmetic *)
Ltac fit_lia :=
  match goal with |- context [fits ?b ?k ?c] =>
    first [ rewrite (proj2 (fits_iff b k c)) by (repeat match goal with H : fits _ _ _ = true |- _ => apply fits_iff in H | H : fits _ _ _ = false |- _ => apply fits_niff in H end; lia)
          | rewrite (proj2 (fits_niff b k c)) by (repeat match goal with H : fits _ _ _ = true |- _ => apply fits_iff in H | H : fits _ _ _ = false |- _ => apply fits_niff in H end; lia) ]
  end; cbv iota beta.

Ltac unf := unfold vbits, vint, vflag, venum, vbytes, vfull, vstr, read_str, some, none, when, aligned.
Ltac spec_cbn := cbn [fields decode f_off f_kind f_name kwidth nwidth num rbind rmap]; norm_lits.

(** run a sub-structure that has a [runs_at] lemma and split on its outcome *)
Ltac sub :=
  rewrite ?step_assoc; cbn [optional rbind]; norm_lits;
  lazymatch goal with
  | |- context [runM (bind ?m ?k) (at_ ?b ?kk ?c)] =>
    let H := fresh "H" in let E1 := fresh "E1" in let E2 := fresh "Hf" in let K := fresh "K" in
    let v := fresh "v" in
    eassert (H : runs_at m c _) by runs1;
    destruct (H b kk ltac:(zside) ltac:(zside)) as [E1 E2]; clear H;
    rewrite runM_bind, E1; clear E1;
    revert E2; cbn [decode kwidth nwidth]; norm_lits; intros E2;
    match type of E2 with forall v, ?d = Ok v -> _ =>
      let d' := fresh "d" in
      match goal with |- context [match ?x with Ok v => Ok (v, _) | Err e => Err e end] => destruct x as [v|]; [specialize (E2 v eq_refl)|clear E2; try reflexivity] end
    end;
    cbv iota beta
  end.
