(** Two runs of a definition that give the same object have read the same bits.  (Support for C59.) *)
From Verif Require Import PyBase Runtime Codec CodecSpec CodecProofs Spec RuntimeProofs Ksy KsySchema KsyTyped InjBase InjCheck InjLevel.
From Coq Require Import ZifyBool Lia.
Open Scope string_scope.
Open Scope list_scope.
Open Scope Z_scope.
Ltac Zify.zify_post_hook ::= Z.div_mod_to_equations.

(** ** Bits *)
Lemma ubits_bits b b' o w : 0 <= w -> ubits b o w = ubits b' o w -> forall i, o <= i < o + w -> bit b i = bit b' i.
Proof.
  intros Hw. replace w with (Z.of_nat (Z.to_nat w)) by lia. generalize (Z.to_nat w) as n. clear w Hw. induction n as [|n IH]; intros H i Hi; [lia|].
  replace (Z.of_nat (S n)) with (Z.of_nat n + 1) in H by lia. rewrite !ubits_app, !ubits_1 in H by lia.
  pose proof (ubits_bound b o (Z.of_nat n) ltac:(lia)). change (2 ^ 1) with 2 in H.
  assert (ubits b o (Z.of_nat n) = ubits b' o (Z.of_nat n) /\ bit b (o + Z.of_nat n) = bit b' (o + Z.of_nat n)) as [E1 E2].
  { destruct (bit b (o + Z.of_nat n)), (bit b' (o + Z.of_nat n)); cbn [Z.b2z] in H; split; lia || reflexivity. }
  destruct (Z.eq_dec i (o + Z.of_nat n)) as [->|]; [exact E2|]. apply IH; [exact E1|lia].
Qed.
Local Transparent slice.
Lemma bit_slice b k n i : 0 <= k -> 0 <= n -> 8 * k <= i < 8 * (k + n) -> bit b i = bit (slice b k n) (i - 8 * k).
Proof.
  intros Hk Hn Hi. unfold bit. replace ((i - 8 * k) mod 8) with (i mod 8) by lia. do 2 f_equal.
  unfold slice. replace ((i - 8 * k) / 8) with (i / 8 - k) by lia.
  rewrite <- (firstn_skipn (Z.to_nat k) b) at 1. rewrite app_nth2; [|rewrite firstn_length; lia]. rewrite firstn_length.
  destruct (le_lt_dec (Z.to_nat k) (List.length b)) as [Hl|Hl].
  - rewrite Nat.min_l by assumption. replace (Z.to_nat (i / 8) - Z.to_nat k)%nat with (Z.to_nat (i / 8 - k)) by lia.
    set (l := skipn (Z.to_nat k) b). rewrite <- (firstn_skipn (Z.to_nat n) l) at 1. destruct (le_lt_dec (List.length (firstn (Z.to_nat n) l)) (Z.to_nat (i / 8 - k))) as [H|H].
    + rewrite firstn_length in H. rewrite (nth_overflow (firstn _ _)) by (rewrite firstn_length; lia). apply nth_overflow. rewrite firstn_skipn. lia.
    + now rewrite app_nth1 by assumption.
  - rewrite (skipn_all2 b) by lia. rewrite firstn_nil. now destruct (Z.to_nat (i / 8) - _)%nat, (Z.to_nat (i / 8 - k)).
Qed.

Local Opaque slice.
Lemma be_int_inj : forall x y, blen x = blen y -> be_int x = be_int y -> x = y.
Proof.
  induction x as [|a x IH] using rev_ind; intros y.
  - destruct y; [reflexivity|]. unfold blen. cbn. lia.
  - destruct y as [|c y _] using rev_ind; [unfold blen; rewrite app_length; cbn; lia|]. rewrite !be_int_app. intros L H. pose proof (bz_range a). pose proof (bz_range c).
    assert (be_int x = be_int y /\ bz a = bz c) as [E1 E2] by lia. apply bz_inj in E2. subst c. f_equal. apply IH; [|exact E1]. unfold blen in *. rewrite !app_length in L. cbn in L. lia.
Qed.
Lemma le_num_inj : forall x y, blen x = blen y -> le_num x = le_num y -> x = y.
Proof.
  induction x as [|a x IH]; intros [|c y] L H; try reflexivity; unfold blen in L; cbn [List.length] in L; try lia.
  unfold le_num in H. cbn [fold_right] in H. fold (le_num x) in H. fold (le_num y) in H. pose proof (bz_range a). pose proof (bz_range c). assert (le_num x = le_num y /\ bz a = bz c) as [E1 E2] by lia. apply bz_inj in E2. subst c. f_equal. apply IH; [unfold blen; lia|exact E1].
Qed.
Lemma decode_inj c x y s : py_decode c x = Ok s -> py_decode c y = Ok s -> x = y.
Proof.
  unfold py_decode. intros H1 H2. destruct (decode_text c x) as [s1|] eqn:E1; [|discriminate]. destruct (decode_text c y) as [s2|] eqn:E2; [|discriminate].
  assert (s2 = s1) as -> by congruence. apply decode_encode in E1, E2. congruence.
Qed.

Section Two.
Context (rt : runtime) (b1 b2 : bytes).

Definition same (o : Z) : Prop := forall i, 0 <= i < o -> bit b1 i = bit b2 i.
Definition here (o : Z) : Prop := 0 <= o <= 8 * blen b1 /\ o <= 8 * blen b2 /\ same o.

Lemma here_bits o n : here o -> 0 <= n -> o + n <= 8 * blen b1 -> o + n <= 8 * blen b2 -> ubits b1 o n = ubits b2 o n -> here (o + n).
Proof.
  intros [H1 [H2 H3]] Hn L1 L2 E. split; [lia|]. split; [lia|]. intros i Hi. destruct (Z.lt_ge_cases i o); [apply H3; lia|]. eapply ubits_bits; [exact Hn|exact E|lia].
Qed.
Lemma here_slice o n : here o -> o mod 8 = 0 -> 0 <= n -> o / 8 + n <= blen b1 -> o / 8 + n <= blen b2 -> slice b1 (o / 8) n = slice b2 (o / 8) n -> here (o + 8 * n).
Proof.
  intros [H1 [H2 H3]] Ha Hn L1 L2 E. split; [lia|]. split; [lia|]. intros i Hi. destruct (Z.lt_ge_cases i o); [apply H3; lia|].
  rewrite (bit_slice b1 (o / 8) n), (bit_slice b2 (o / 8) n) by lia. now rewrite E.
Qed.

(** ** Leaves *)
Lemma runM_ok {A} (m : M A) s v s' : m s = (Ok v, s') -> runM m s = Ok (v, s').
Proof. unfold runM. now intros ->. Qed.
Lemma at_zero b k n : 0 <= k + n -> at_ b (k + n) 0 = at_ b 0 (8 * (k + n)).
Proof. intros H. replace (k + n) with (0 + (k + n)) at 1 by lia. rewrite at_rebase by lia. f_equal. lia. Qed.

Lemma read_bytes_ok b o n x s : 0 <= o <= 8 * blen b -> o mod 8 = 0 -> read_bytes rt n (at_ b 0 o) = (Ok x, s) ->
  0 <= n /\ o / 8 + n <= blen b /\ x = slice b (o / 8) n /\ blen x = n /\ s = at_ b 0 (o + 8 * n).
Proof.
  intros Ho Ha H. apply runM_ok in H. rewrite run_read_bytes_var in H; [|lia|lia|exact Ha|left; apply fits_iff; lia].
  change (0 + o / 8) with (o / 8) in H.
  destruct (Z.ltb_spec n 0); [discriminate|]. destruct (Z.leb_spec (o / 8 + n) (blen b)); [|discriminate].
  assert (x = slice b (o / 8) n) as -> by congruence. assert (s = at_ b (o / 8 + n) 0) as -> by congruence.
  split; [lia|]. split; [lia|]. split; [reflexivity|]. split; [apply slice_length; lia|]. rewrite at_zero by lia. f_equal. lia.
Qed.
Lemma read_full_ok b o x s : 0 <= o <= 8 * blen b -> o mod 8 = 0 -> read_bytes_full rt (at_ b 0 o) = (Ok x, s) ->
  x = slice b (o / 8) (blen b - o / 8) /\ s = at_ b 0 (8 * blen b).
Proof.
  intros Ho Ha H. apply runM_ok in H. rewrite run_read_bytes_full in H; [|lia|lia|exact Ha|apply fits_iff; lia].
  assert (x = rest b (0 + o / 8)) as -> by congruence. assert (s = at_ b (blen b) 0) as -> by congruence. split.
  - Local Transparent slice. unfold slice, rest. rewrite firstn_all2; [f_equal; lia|]. rewrite skipn_length. unfold blen. lia. Local Opaque slice.
  - replace (blen b) with (0 + blen b) at 1 by lia. rewrite at_rebase by lia. f_equal. lia.
Qed.

(** the same value from the same bytes *)
Definition leaf {A} (m1 m2 : M A) : Prop := forall o v s1 s2, here o -> o mod 8 = 0 ->
  m1 (at_ b1 0 o) = (Ok v, s1) -> m2 (at_ b2 0 o) = (Ok v, s2) -> exists o', s1 = at_ b1 0 o' /\ s2 = at_ b2 0 o' /\ here o' /\ o' mod 8 = 0.

Lemma leaf_bytes n1 n2 : leaf (read_bytes rt n1) (read_bytes rt n2).
Proof.
  intros o x s1 s2 Hh Ha H1 H2. pose proof Hh as [B1 [B2 _]]. apply read_bytes_ok in H1 as [N1 [L1 [X1 [E1 ->]]]]; [|lia|exact Ha]. apply read_bytes_ok in H2 as [N2 [L2 [X2 [E2 ->]]]]; [|lia|exact Ha].
  assert (n2 = n1) as -> by congruence. exists (o + 8 * n1). split; [reflexivity|]. split; [reflexivity|]. split; [|lia]. apply here_slice; [exact Hh|exact Ha|lia|lia|lia|congruence].
Qed.
Lemma leaf_full : leaf (read_bytes_full rt) (read_bytes_full rt).
Proof.
  intros o x s1 s2 Hh Ha H1 H2. pose proof Hh as [B1 [B2 _]]. apply read_full_ok in H1 as [X1 ->]; [|lia|exact Ha]. apply read_full_ok in H2 as [X2 ->]; [|lia|exact Ha].
  assert (E : blen b1 = blen b2).
  { assert (blen x = blen b1 - o / 8) by (rewrite X1; apply slice_length; lia). assert (blen x = blen b2 - o / 8) by (rewrite X2; apply slice_length; lia). lia. }
  exists (8 * blen b1). split; [reflexivity|]. split; [now rewrite E|]. split; [|lia].
  replace (8 * blen b1) with (o + 8 * (blen b1 - o / 8)) by lia. apply here_slice; [exact Hh|exact Ha|lia|lia|lia|congruence].
Qed.
Lemma leaf_map {A B} (m1 m2 : M A) (k1 k2 : A -> M B) : leaf m1 m2 ->
  (forall a s v s', k1 a s = (Ok v, s') -> s' = s) -> (forall a s v s', k2 a s = (Ok v, s') -> s' = s) ->
  (forall a1 a2 o1 o2 s1 s2 v t1 t2, m1 (at_ b1 0 o1) = (Ok a1, s1) -> m2 (at_ b2 0 o2) = (Ok a2, s2) -> here o1 -> o1 = o2 -> o1 mod 8 = 0 -> k1 a1 s1 = (Ok v, t1) -> k2 a2 s2 = (Ok v, t2) -> a1 = a2) ->
  leaf (bind m1 k1) (bind m2 k2).
Proof.
  intros H K1 K2 Hi o v s1 s2 Hh Ha R1 R2. apply bind_inv in R1 as [a1 [t1 [R1 Q1]]]. apply bind_inv in R2 as [a2 [t2 [R2 Q2]]].
  assert (a1 = a2) as <- by (eapply Hi; eauto). apply K1 in Q1. apply K2 in Q2. subst. eapply H; eassumption.
Qed.
Lemma ret_state {A} (a : A) s v s' : ret a s = (Ok v, s') -> s' = s. Proof. unfold ret. congruence. Qed.
Lemma leaf_ret {A B} (m1 m2 : M A) (f : A -> B) : leaf m1 m2 -> (forall a a', f a = f a' -> a = a') -> leaf (x <- m1;; ret (f x)) (x <- m2;; ret (f x)).
Proof.
  intros H Hf. apply leaf_map; [exact H|intros; eapply ret_state; eassumption|intros; eapply ret_state; eassumption|].
  intros. unfold ret in *. apply Hf. congruence.
Qed.
(** numbers: injective on strings of the same length *)
Lemma leaf_conv n (f : bytes -> Z) : (forall x y, blen x = n -> blen y = n -> f x = f y -> x = y) -> leaf (x <- read_bytes rt n;; ret (f x)) (x <- read_bytes rt n;; ret (f x)).
Proof.
  intros Hf. apply leaf_map; [apply leaf_bytes|intros; eapply ret_state; eassumption|intros; eapply ret_state; eassumption|].
  intros a1 a2 o1 o2 s1 s2 v t1 t2 H1 H2 Hh <- Ha Q1 Q2. destruct Hh as [B1 [B2 _]].
  apply read_bytes_ok in H1 as [_ [_ [_ [L1 _]]]]; [|lia|exact Ha]. apply read_bytes_ok in H2 as [_ [_ [_ [L2 _]]]]; [|lia|exact Ha].
  unfold ret in *. apply Hf; congruence.
Qed.
Lemma leaf_number f : leaf (number rt f) (number rt f).
Proof.
  destruct f; cbn [number]; unfold read_u1, read_u2be, read_u2le, read_u4be, read_u4le, read_s2be; apply leaf_conv.
  all: try (intros x y L1 L2 E; apply be_int_inj; [congruence|exact E]).
  all: try (intros x y L1 L2 E; rewrite !le_int_num in E; apply le_num_inj; [congruence|exact E]).
  intros x y L1 L2 E. apply be_int_inj; [congruence|]. cbv zeta in E.
  assert (R : forall z, blen z = 2 -> 0 <= be_int z < 65536).
  { intros z. destruct z as [|u [|w [|]]]; unfold blen; cbn [List.length]; try lia. intros _. change [u; w] with (([] ++ [u]) ++ [w]). rewrite !be_int_app. change (be_int []) with 0.
    pose proof (bz_range u). pose proof (bz_range w). lia. }
  pose proof (R x L1). pose proof (R y L2). destruct (be_int x <? 32768) eqn:?, (be_int y <? 32768) eqn:?; lia.
Qed.
Lemma resolve_inj E z z' : resolve_enum E z = resolve_enum E z' -> z = z'.
Proof. unfold resolve_enum. destruct (en_find (en_members E) z), (en_find (en_members E) z'); congruence. Qed.
Lemma leaf_enum en (m : M Z) : leaf m m -> leaf (as_enum en m) (as_enum en m).
Proof. intros H. destruct en as [E|]; cbn [as_enum]; apply leaf_ret; try exact H; [intros a a'; apply resolve_inj|intros a a' X; congruence]. Qed.
Lemma leaf_vbytes n1 n2 : leaf (vbytes rt n1) (vbytes rt n2).
Proof. apply leaf_ret; [apply leaf_bytes|congruence]. Qed.
Lemma leaf_vfull : leaf (vfull rt) (vfull rt). Proof. apply leaf_ret; [apply leaf_full|congruence]. Qed.
Lemma lift_state {A} (r : res A) s v s' : lift r s = (Ok v, s') -> s' = s. Proof. unfold lift. congruence. Qed.
Lemma leaf_decode c (m1 m2 : M bytes) : leaf m1 m2 -> leaf (x <- m1;; lift (py_decode c x)) (x <- m2;; lift (py_decode c x)).
Proof.
  intros H. apply leaf_map; [exact H|intros; eapply lift_state; eassumption|intros; eapply lift_state; eassumption|].
  intros. unfold lift in *. eapply decode_inj with (c := c) (s := v); congruence.
Qed.
Lemma leaf_vstr c n1 n2 : leaf (vstr rt c n1) (vstr rt c n2).
Proof. unfold vstr, read_str. apply leaf_ret; [apply leaf_decode, leaf_bytes|congruence]. Qed.
Lemma leaf_vstr_full c : leaf (vstr_full rt c) (vstr_full rt c).
Proof.
  unfold vstr_full. apply leaf_map; [apply leaf_full| | |].
  - intros a s v s' H. apply bind_inv in H as [x [s0 [H1 H2]]]. apply lift_state in H1. apply ret_state in H2. congruence.
  - intros a s v s' H. apply bind_inv in H as [x [s0 [H1 H2]]]. apply lift_state in H1. apply ret_state in H2. congruence.
  - intros a1 a2 o1 o2 s1 s2 v t1 t2 _ _ _ _ _ H1 H2. apply bind_inv in H1 as [x1 [u1 [H1 Q1]]]. apply bind_inv in H2 as [x2 [u2 [H2 Q2]]]. unfold ret, lift in *.
    assert (x1 = x2) as <- by congruence. eapply decode_inj with (c := c) (s := x1); congruence.
Qed.
Lemma leaf_expect x loc : leaf (expect_bytes rt x loc) (expect_bytes rt x loc).
Proof.
  unfold expect_bytes. apply leaf_map; [apply leaf_bytes| | |].
  - intros a s v s' H. destruct (bytes_eqb a x); [now apply ret_state in H|discriminate].
  - intros a s v s' H. destruct (bytes_eqb a x); [now apply ret_state in H|discriminate].
  - intros a1 a2 o1 o2 s1 s2 v t1 t2 _ _ _ _ _ H1 H2. destruct (bytes_eqb a1 x) eqn:E1; [|discriminate]. destruct (bytes_eqb a2 x) eqn:E2; [|discriminate].
    apply bytes_eqb_true in E1, E2. congruence.
Qed.

(** bits, at any place *)
Lemma bits_ok b o n v s : 0 < n -> 0 <= o <= 8 * blen b -> read_bits n (at_ b 0 o) = (Ok v, s) -> v = ubits b o n /\ s = at_ b 0 (o + n) /\ o + n <= 8 * blen b.
Proof.
  intros Hn Ho H. apply runM_ok in H. rewrite run_read_bits in H; [|lia|lia|exact Hn|right; apply fits_iff; lia].
  destruct (fits b 0 (o + n)) eqn:F; [|discriminate]. apply fits_iff in F. split; [|split; [congruence|lia]]. change (8 * 0 + o) with o in H. congruence.
Qed.
Definition bit_leaf {A} (m : M A) (n : Z) : Prop := forall o v s1 s2, here o ->
  m (at_ b1 0 o) = (Ok v, s1) -> m (at_ b2 0 o) = (Ok v, s2) -> s1 = at_ b1 0 (o + n) /\ s2 = at_ b2 0 (o + n) /\ here (o + n).
Lemma leaf_bits n : 0 < n -> bit_leaf (read_bits n) n.
Proof.
  intros Hn o v s1 s2 Hh H1 H2. pose proof Hh as [B1 [B2 _]]. apply bits_ok in H1 as [V1 [-> L1]]; [|exact Hn|lia]. apply bits_ok in H2 as [V2 [-> L2]]; [|exact Hn|lia].
  split; [reflexivity|]. split; [reflexivity|]. apply here_bits; [exact Hh|lia|lia|lia|congruence].
Qed.
Lemma leaf_bits_map {B} n (m : M Z) (f : Z -> B) : bit_leaf m n -> (forall a a' o o' s s' , m (at_ b1 0 o) = (Ok a, s) -> m (at_ b2 0 o') = (Ok a', s') -> here o -> here o' -> f a = f a' -> a = a') -> bit_leaf (x <- m;; ret (f x)) n.
Proof.
  intros H Hf o v s1 s2 Hh R1 R2. apply bind_inv in R1 as [a1 [t1 [R1 Q1]]]. apply bind_inv in R2 as [a2 [t2 [R2 Q2]]].
  unfold ret in Q1, Q2. assert (a1 = a2) as <- by (eapply Hf; eauto; congruence). assert (t1 = s1) as -> by congruence. assert (t2 = s2) as -> by congruence. eapply H; eassumption.
Qed.
Lemma leaf_vbits en n : 0 < n -> bit_leaf (as_enum en (read_bits n)) n.
Proof. intros Hn. destruct en as [E|]; cbn [as_enum]; apply leaf_bits_map; try (now apply leaf_bits); intros a a' o o' s s' _ _ _ _; [apply resolve_inj|congruence]. Qed.
Lemma leaf_vflag : bit_leaf vflag 1.
Proof.
  assert (F : bit_leaf (x <- read_bits 1;; ret (negb (x =? 0))) 1).
  { apply leaf_bits_map; [now apply leaf_bits|]. intros a a' o o' s s' H1 H2 [B1 _] [B1' [B2' _]] E.
    apply bits_ok in H1 as [-> _]; [|lia|lia]. apply bits_ok in H2 as [-> _]; [|lia|lia]. rewrite !ubits_1 in *. destruct (bit b1 o), (bit b2 o'); cbn in *; congruence. }
  intros o v s1 s2 Hh R1 R2. unfold vflag, read_flag in R1, R2. apply bind_inv in R1 as [a1 [t1 [R1 Q1]]]. apply bind_inv in R2 as [a2 [t2 [R2 Q2]]].
  unfold ret in Q1, Q2. assert (a1 = a2) as <- by congruence. assert (t1 = s1) as -> by congruence. assert (t2 = s2) as -> by congruence. eapply F; eassumption.
Qed.
(** ## Two runs *)
(** ** Expressions without instances *)
Definition quiet {A} (m : K A) : Prop := forall b o fs v f s, 0 <= o -> m fs (at_ b 0 o) = (Ok (v, f), s) -> f = fs /\ s = at_ b 0 o.
Lemma q_bind {A B} (m : K A) (k : A -> K B) : quiet m -> (forall a, quiet (k a)) -> quiet (kbind m k).
Proof.
  intros Hm Hk b o fs v f s Ho H. apply kbind_inv in H as [a [f0 [s0 [H1 H2]]]]. apply Hm in H1 as [-> ->]; [|exact Ho]. now apply Hk in H2.
Qed.
Lemma q_ret {A} (a : A) : quiet (kret a). Proof. intros b o fs v f s _ H. apply kret_inv in H as [_ [-> ->]]. now split. Qed.
Lemma q_int v : quiet (need_int v). Proof. intros b o fs w f s _ H. apply need_int_inv in H as [_ [-> ->]]. now split. Qed.
Lemma q_bool v : quiet (need_bool v). Proof. intros b o fs w f s _ H. apply need_bool_inv in H as [_ [-> ->]]. now split. Qed.
Lemma q_str v : quiet (need_str v). Proof. intros b o fs w f s _ H. apply need_str_inv in H as [_ [-> ->]]. now split. Qed.
Lemma q_get sc x : quiet (get sc x).
Proof. intros b o fs v f s _ H. unfold get in H. destruct (lookup x _); unfold ret, fail in H; [|discriminate]. split; congruence. Qed.
Lemma q_dot x w : quiet (fun fs => match getattr x w with Some v => ret (v, fs) | None => fail (AttributeError x) end).
Proof. intros b o fs v f s _ H. cbv beta in H. destruct (getattr x w); unfold ret, fail in H; [|discriminate]. split; congruence. Qed.
Lemma q_decode c a : quiet (fun fs => match a with VBytes x => s <- lift (py_decode c x);; ret (VStr s, fs) | _ => fail TypeError end).
Proof.
  intros b o fs v f s _ H. cbv beta in H. destruct a; try discriminate. apply bind_inv in H as [z [s0 [H1 H2]]]. apply lift_state in H1. unfold ret in H2. split; congruence.
Qed.
Lemma q_io {A} (m : M A) : (forall b o v s, 0 <= o -> m (at_ b 0 o) = (Ok v, s) -> s = at_ b 0 o) -> quiet (io m).
Proof. intros H b o fs v f s Ho E. apply io_inv in E as [E ->]. apply H in E; [now split|exact Ho]. Qed.
Lemma q_lift {A} (r : res A) : quiet (io (lift r)). Proof. apply q_io. intros b o v s _ H. now apply lift_state in H. Qed.
Lemma q_size : quiet (io io_size). Proof. apply q_io. intros b o v s _ H. unfold io_size in H. congruence. Qed.
Lemma q_pos : quiet (io io_pos). Proof. apply q_io. intros b o v s _ H. unfold io_pos in H. congruence. Qed.
Lemma q_eof : quiet (io (is_eof rt)).
Proof.
  apply q_io. intros b o v s Ho H. destruct (Z.eq_dec (o mod 8) 0) as [E|E].
  - apply runM_ok in H. rewrite run_is_eof in H; [congruence|lia|exact Ho|exact E].
  - Local Transparent at_. unfold is_eof, at_ in H. cbn [s_left] in H. destruct (Z.ltb_spec 0 (- o mod 8)); [|lia]. unfold at_. congruence. Local Opaque at_.
Qed.
Ltac qk := repeat first
  [ assumption
  | match goal with H : forall _, quiet _ |- quiet _ => apply H end
  | apply q_int | apply q_bool | apply q_str | apply q_get | apply q_lift | apply q_size | apply q_pos | apply q_eof | apply q_dot | apply q_decode
  | apply q_ret
  | apply q_bind; [|intros ?]
  | match goal with |- quiet (if ?c then _ else _) => destruct c end ].
Ltac bools := repeat match goal with H : _ && _ = true |- _ => apply andb_true_iff in H as [? ?] end.
Lemma quiet_eval : forall e, no_inst e = true -> forall item, quiet (eval rt e item).
Proof.
  apply (expr_mind (fun e => no_inst e = true -> forall item, quiet (eval rt e item)) (fun _ => True) (fun _ => True) (fun _ => True) (fun _ => True) (fun _ => True) (fun _ => True) (fun _ => True)); try (intros; exact I).
  all: cbn [no_inst eval]; intros; bools; try discriminate.
  all: repeat match goal with H : ?x = true -> _, H' : ?x = true |- _ => specialize (H H') end.
  all: qk.
Qed.

(** ** Two runs of a program *)
Definition joinable (f1 f2 : frames) : Prop := exists F, ext f1 F /\ ext f2 F.
Lemma join_back f1 f2 g1 g2 : joinable g1 g2 -> ext f1 g1 -> ext f2 g2 -> joinable f1 f2.
Proof. intros [F [E1 E2]] H1 H2. exists F. split; eapply ext_trans; eassumption. Qed.
Lemma join_refl f : joinable f f. Proof. exists f. split; apply ext_refl. Qed.

Definition Rel {A} (m1 m2 : K A) (o : Z) (fs : frames) (H : A -> A -> Prop) (C : A -> A -> Z -> Prop) : Prop :=
  forall v1 f1 s1 v2 f2 s2, here o -> m1 fs (at_ b1 0 o) = (Ok (v1, f1), s1) -> m2 fs (at_ b2 0 o) = (Ok (v2, f2), s2) ->
  joinable f1 f2 -> H v1 v2 -> f1 = f2 /\ exists o', s1 = at_ b1 0 o' /\ s2 = at_ b2 0 o' /\ here o' /\ C v1 v2 o'.
Definition yes {A} (_ _ : A) : Prop := True.

Lemma R_bind {A B} (m1 m2 : K A) (k1 k2 : A -> K B) o fs C' H C :
  Rel m1 m2 o fs yes C' -> (forall a, grows (k1 a)) -> (forall a, grows (k2 a)) ->
  (forall a1 a2 f o', here o' -> C' a1 a2 o' -> Rel (k1 a1) (k2 a2) o' f H C) -> Rel (kbind m1 k1) (kbind m2 k2) o fs H C.
Proof.
  intros Hm G1 G2 Hk v1 f1 s1 v2 f2 s2 Hh R1 R2 J Hv. apply kbind_inv in R1 as [a1 [g1 [t1 [R1 Q1]]]]. apply kbind_inv in R2 as [a2 [g2 [t2 [R2 Q2]]]].
  assert (J' : joinable g1 g2) by (eapply join_back; [exact J|eapply G1; eassumption|eapply G2; eassumption]).
  destruct (Hm _ _ _ _ _ _ Hh R1 R2 J' I) as [<- [o' [-> [-> [Hh' HC]]]]]. eapply Hk; eassumption.
Qed.
Lemma R_quiet {A} (m : K A) o fs H : quiet m -> Rel m m o fs H (fun _ _ o' => o' = o).
Proof. intros Hq v1 f1 s1 v2 f2 s2 Hh R1 R2 J Hv. pose proof Hh as [B1 _]. apply Hq in R1 as [-> ->]; [|lia]. apply Hq in R2 as [-> ->]; [|lia]. split; [reflexivity|]. exists o. now repeat split; try apply Hh. Qed.
Lemma R_weak {A} (m1 m2 : K A) o fs H C (H' : A -> A -> Prop) (C' : A -> A -> Z -> Prop) : Rel m1 m2 o fs H C -> (forall a b, H' a b -> H a b) -> (forall a b o', H' a b -> C a b o' -> C' a b o') -> Rel m1 m2 o fs H' C'.
Proof. intros R WH WC v1 f1 s1 v2 f2 s2 Hh R1 R2 J Hv. destruct (R _ _ _ _ _ _ Hh R1 R2 J (WH _ _ Hv)) as [E [o' [E1 [E2 [Hh' HC]]]]]. split; [exact E|]. exists o'. repeat (split; [assumption|]). eapply WC; eassumption. Qed.
(** the value is determined *)
Definition steadyR {A} (m : K A) (o : Z) (fs : frames) : Prop := Rel m m o fs yes (fun a b o' => o' = o /\ a = b).
Lemma S_fun {A} (m : K A) o fs : quiet m -> (forall fs s s' v1 f1 t1 v2 f2 t2, m fs s = (Ok (v1, f1), t1) -> m fs s' = (Ok (v2, f2), t2) -> v1 = v2) -> steadyR m o fs.
Proof.
  intros Hq Hd v1 f1 s1 v2 f2 s2 Hh R1 R2 J Hv. assert (v1 = v2) as <- by (eapply Hd; eassumption). pose proof Hh as [B1 _]. apply Hq in R1 as [-> ->]; [|lia]. apply Hq in R2 as [-> ->]; [|lia].
  split; [reflexivity|]. exists o. now repeat split; try apply Hh.
Qed.
Lemma S_ret {A} (a : A) o fs : steadyR (kret a) o fs.
Proof. apply S_fun; [apply q_ret|]. intros. apply kret_inv in H as [-> _]. apply kret_inv in H0 as [-> _]. reflexivity. Qed.
Lemma S_int v o fs : steadyR (need_int v) o fs.
Proof. apply S_fun; [apply q_int|]. intros. apply need_int_inv in H as [? _]. apply need_int_inv in H0 as [? _]. congruence. Qed.
Lemma S_bool v o fs : steadyR (need_bool v) o fs.
Proof. apply S_fun; [apply q_bool|]. intros. apply need_bool_inv in H as [? _]. apply need_bool_inv in H0 as [? _]. congruence. Qed.
Lemma S_str v o fs : steadyR (need_str v) o fs.
Proof. apply S_fun; [apply q_str|]. intros. apply need_str_inv in H as [? _]. apply need_str_inv in H0 as [? _]. congruence. Qed.
Lemma S_get sc x o fs : steadyR (get sc x) o fs.
Proof. apply S_fun; [apply q_get|]. intros. unfold get, ret, fail in *. destruct (lookup x (hd [] (outer sc fs0))); congruence. Qed.
Lemma S_dot x w o fs : steadyR (fun fs => match getattr x w with Some v => ret (v, fs) | None => fail (AttributeError x) end) o fs.
Proof. apply S_fun; [apply q_dot|]. intros. cbv beta in *. unfold ret, fail in *. destruct (getattr x w); congruence. Qed.
Lemma S_lift {A} (r : res A) o fs : steadyR (io (lift r)) o fs.
Proof. apply S_fun; [apply q_lift|]. intros. apply io_inv in H as [H _]. apply io_inv in H0 as [H0 _]. unfold lift in *. congruence. Qed.
Lemma S_decode c a o fs : steadyR (fun fs => match a with VBytes x => s <- lift (py_decode c x);; ret (VStr s, fs) | _ => fail TypeError end) o fs.
Proof. apply S_fun; [apply q_decode|]. intros. cbv beta in *. destruct a; try discriminate. apply bind_inv in H as [z [s0 [H1 H2]]]. apply bind_inv in H0 as [z' [s0' [H1' H2']]]. unfold lift, ret in *. congruence. Qed.
Lemma S_bind {A B} (m : K A) (k : A -> K B) o fs : steadyR m o fs -> (forall a, grows (k a)) -> (forall a f, steadyR (k a) o f) -> steadyR (kbind m k) o fs.
Proof. intros Hm G Hk. eapply R_bind; [exact Hm|exact G|exact G|]. intros a1 a2 f o' _ [-> <-]. apply Hk. Qed.

(** ** Expressions with instances *)
Lemma join_put (a : attrs) r x v1 v2 : joinable ((a ++ [(x, v1)]) :: r) ((a ++ [(x, v2)]) :: r) -> v1 = v2.
Proof.
  intros [F [E1 E2]]. apply ext_cons in E1 as [A1 [F1 [-> [[m1 P1] _]]]]. apply ext_cons in E2 as [A2 [F2 [E [[m2 P2] _]]]].
  assert (A2 = A1) as -> by congruence. rewrite P1 in P2. rewrite <- !app_assoc in P2. apply app_inv_head in P2. cbn [app] in P2. congruence.
Qed.
Definition still (b : bytes) (s : stream) : Prop := s_buf s = b /\ s_bits s = 0 /\ s_left s = 0.
Lemma still_at b o : o mod 8 = 0 -> still b (at_ b 0 o). Proof. intros H. rewrite at_aligned_state by exact H. now repeat split. Qed.
Lemma align_still b s : still b s -> still b (auto_align rt s).
Proof. intros [H1 [H2 H3]]. unfold auto_align. destruct rt; [now repeat split|]. unfold align_state. now repeat split. Qed.
Lemma still_bytes b s n x s' : still b s -> read_bytes rt n s = (Ok x, s') -> still b s'.
Proof.
  intros H E. apply align_still in H. unfold read_bytes, raw_read_bytes, io_read in E. revert E H. generalize (auto_align rt s). intros t E [H1 [H2 H3]].
  repeat match type of E with context [if ?c then _ else _] => destruct c; try discriminate end.
  all: repeat match type of E with context [match ?l with [] => _ | _ => _ end] => destruct l; try discriminate end.
  all: cbn in E; assert (s' = s') as _ by reflexivity; match type of E with (_, ?t') = _ => assert (s' = t') as -> by congruence end; now repeat split.
Qed.
(* PART3 *)
Lemma still_map {A B} (m : M A) (k : A -> M B) b s v s' : (forall x t, m s = (Ok x, t) -> still b t) -> (forall a t w t', k a t = (Ok w, t') -> t' = t) -> bind m k s = (Ok v, s') -> still b s'.
Proof. intros H1 H2 E. apply bind_inv in E as [a [t [E1 E2]]]. apply H2 in E2. subst. eapply H1; exact E1. Qed.
Lemma still_flat t loc en b fs s v f s' : flat t = true -> still b s -> run_ty rt loc en t fs s = (Ok (v, f), s') -> f = fs /\ still b s'.
Proof.
  intros Hf Hs E. destruct t as [| |fm| | |c [| | | | | | | | | | | | | | | | | | | | ]| | | | | | |]; try discriminate; cbn [run_ty eval] in E.
  - apply kbind_inv in E as [a [g [t [E1 E2]]]]. apply kret_inv in E2 as [-> [-> ->]]. apply io_inv in E1 as [E1 ->]. split; [reflexivity|].
    assert (N : forall x t', number rt fm s = (Ok x, t') -> still b t').
    { intros x t' H. destruct fm; cbn [number] in H; unfold read_u1, read_u2be, read_u2le, read_u4be, read_u4le, read_s2be in H;
        (eapply still_map; [| |exact H]; [let Hx := fresh in intros ? ? Hx; exact (still_bytes _ _ _ _ _ Hs Hx)|let Hx := fresh in intros ? ? ? ? Hx; exact (ret_state _ _ _ _ Hx)]). }
    destruct en; cbn [as_enum] in E1; (eapply still_map; [exact N| |exact E1]; let Hx := fresh in intros ? ? ? ? Hx; exact (ret_state _ _ _ _ Hx)).
  - apply kbind_inv in E as [a [g [t [E1 E2]]]]. apply kret_inv in E1 as [-> [-> ->]]. apply kbind_inv in E2 as [a [g [t' [E1 E2]]]]. apply need_int_inv in E1 as [_ [-> ->]].
    apply kbind_inv in E2 as [w [g [t' [E1 E2]]]]. apply kret_inv in E2 as [-> [-> ->]]. apply io_inv in E1 as [E1 ->]. split; [reflexivity|].
    unfold vstr, read_str in E1. eapply still_map; [| |exact E1]; [|let Hx := fresh in intros ? ? ? ? Hx; exact (ret_state _ _ _ _ Hx)].
    intros x u H. eapply still_map; [| |exact H]; [let Hx := fresh in intros ? ? Hx; exact (still_bytes _ _ _ _ _ Hs Hx)|let Hx := fresh in intros ? ? ? ? Hx; exact (lift_state _ _ _ _ Hx)].
Qed.
Lemma seek_still b s n : still b s -> io_seek rt n s = (Ok tt, {| s_buf := b; s_pos := Z.to_nat n; s_bits := 0; s_left := 0 |}).
Proof. intros H. apply align_still in H as [H1 [H2 H3]]. unfold io_seek, set_pos. now rewrite H1, H2, H3. Qed.

Definition mildR {A} (m : K A) (o : Z) (fs : frames) : Prop := Rel m m o fs yes (fun _ _ o' => o' = o).
Lemma steady_mild {A} (m : K A) o fs : steadyR m o fs -> mildR m o fs.
Proof. intros H. eapply R_weak; [exact H|auto|]. now intros a b o' _ [-> _]. Qed.

Ltac sk := repeat first
  [ assumption
  | match goal with H : forall _ _, steadyR _ _ _ |- steadyR _ _ _ => apply H end
  | apply S_int | apply S_bool | apply S_str | apply S_get | apply S_lift | apply S_dot | apply S_decode
  | apply S_ret
  | apply S_bind; [|intros ?; wk; apply we|intros ? ?]
  | match goal with |- steadyR (if ?c then _ else _) _ _ => destruct c end ].

Lemma cached_rel x (m : K pyval) o fs : (lookup x (hd [] fs) = None -> steadyR m o fs) -> steadyR (fun fs => match lookup x (hd [] fs) with Some v => ret (v, fs) | None => m fs end) o fs.
Proof.
  intros H v1 f1 s1 v2 f2 s2 Hh R1 R2 J Hv. cbv beta in R1, R2. destruct (lookup x (hd [] fs)); [|eapply H; eauto]. unfold ret in R1, R2.
  split; [congruence|]. exists o. split; [congruence|]. split; [congruence|]. split; [exact Hh|]. split; [reflexivity|congruence].
Qed.
Lemma put_inv x v fs s u f s' : put x v fs s = (Ok (u, f), s') -> f = (hd [] fs ++ [(x, v)]) :: tl fs /\ s' = s.
Proof. unfold put, ret. intros H. split; congruence. Qed.


Lemma ext_app_inv p f F : ext (p ++ f) F -> ext f (skipn (List.length p) F).
Proof.
  intros [fr [more [-> H]]]. apply Forall2_app_inv_l in H as [q1 [q2 [H1 [H2 ->]]]]. assert (HL : List.length p = List.length q1) by (clear - H1; induction H1; cbn [List.length]; congruence). rewrite HL, <- app_assoc, skipn_app, skipn_all, Nat.sub_diag. cbn [skipn app].
  exists q2, more. now split.
Qed.
Lemma S_inst sc (m : K pyval) o fs : steadyR m o (outer sc fs) -> steadyR (fun fs => r <- m (outer sc fs);; ret (fst r, inner sc fs ++ snd r)) o fs.
Proof.
  intros H v1 f1 s1 v2 f2 s2 Hh R1 R2 J Hv. apply bind_inv in R1 as [[a1 g1] [t1 [R1 Q1]]]. apply bind_inv in R2 as [[a2 g2] [t2 [R2 Q2]]]. unfold ret in Q1, Q2. cbn [fst snd] in Q1, Q2.
  assert (a1 = v1) as -> by congruence. assert (a2 = v2) as -> by congruence. assert (t1 = s1) as -> by congruence. assert (t2 = s2) as -> by congruence.
  assert (f1 = inner sc fs ++ g1) as -> by congruence. assert (f2 = inner sc fs ++ g2) as -> by congruence.
  assert (J' : joinable g1 g2) by (destruct J as [F [E1 E2]]; exists (skipn (List.length (inner sc fs)) F); split; now apply ext_app_inv).
  destruct (H _ _ _ _ _ _ Hh R1 R2 J' I) as [-> Hs]. now split.
Qed.
Lemma S_put x v o fs : steadyR (put x v) o fs.
Proof.
  intros v1 f1 s1 v2 f2 s2 Hh R1 R2 J Hv. apply put_inv in R1 as [-> ->]. apply put_inv in R2 as [-> ->]. split; [reflexivity|]. exists o. destruct v1, v2. now repeat split; try apply Hh.
Qed.
Lemma M_at x p en t o fs : flat t = true -> o mod 8 = 0 -> (forall f, mildR (eval rt p VNone) o f) ->
  steadyR (back <~ io io_pos;; p <~ eval rt p VNone;; p <~ need_int p;; _ <~ io (io_seek rt p);;
             v <~ run_ty rt "" en t;; v <~ present v;; _ <~ io (io_seek rt back);; _ <~ put ("_m_" ++ x) v;; kret v) o fs.
Proof.
  intros Hf Ha Hp v1 f1 s1 v2 f2 s2 Hh R1 R2 J Hv.
  apply kbind_inv in R1 as [k1 [g1 [u1 [P1 R1]]]]. apply kbind_inv in R2 as [k2 [g2 [u2 [P2 R2]]]].
  assert (k1 = o / 8 /\ g1 = fs /\ u1 = at_ b1 0 o) as [-> [-> ->]].
  { apply io_inv in P1 as [P1 ->]. rewrite at_aligned_state in P1 |- * by exact Ha. unfold io_pos in P1. cbn [s_pos] in P1. destruct Hh as [B1 _]. split; [|split; congruence]. assert (Z.of_nat (Z.to_nat (0 + o / 8)) = k1) by congruence. lia. }
  assert (k2 = o / 8 /\ g2 = fs /\ u2 = at_ b2 0 o) as [-> [-> ->]].
  { apply io_inv in P2 as [P2 ->]. rewrite at_aligned_state in P2 |- * by exact Ha. unfold io_pos in P2. cbn [s_pos] in P2. destruct Hh as [B1 _]. split; [|split; congruence]. assert (Z.of_nat (Z.to_nat (0 + o / 8)) = k2) by congruence. lia. }
  clear P1 P2. apply kbind_inv in R1 as [p1 [g1 [u1 [P1 R1]]]]. apply kbind_inv in R2 as [p2 [g2 [u2 [P2 R2]]]].
  assert (W : forall q, grows (p <~ need_int q;; _ <~ io (io_seek rt p);; v <~ run_ty rt "" en t;; v <~ present v;; _ <~ io (io_seek rt (o / 8));; _ <~ put ("_m_" ++ x) v;; kret v)) by (intros q; wk; apply wty).
  assert (J' : joinable g1 g2) by (eapply join_back; [exact J|eapply W; exact R1|eapply W; exact R2]).
  destruct (Hp fs _ _ _ _ _ _ Hh P1 P2 J' I) as [<- [o' [-> [-> [_ ->]]]]].
  assert (T : forall b p v f s, (p <~ need_int p;; _ <~ io (io_seek rt p);; v <~ run_ty rt "" en t;; v <~ present v;; _ <~ io (io_seek rt (o / 8));; _ <~ put ("_m_" ++ x) v;; kret v) g1 (at_ b 0 o) = (Ok (v, f), s) ->
              f = (hd [] g1 ++ [(("_m_" ++ x)%string, v)]) :: tl g1 /\ s = at_ b 0 o).
  { clear - Hf Ha Hh. intros b p v f s R. apply kbind_inv in R as [n [g [u [P R]]]]. apply need_int_inv in P as [_ [-> ->]].
    apply kbind_inv in R as [[] [g [u [P R]]]]. apply io_inv in P as [P ->]. rewrite seek_still with (b := b) in P by (now apply still_at). match type of P with (_, ?t0) = _ => assert (u = t0) as -> by congruence end. clear P.
    apply kbind_inv in R as [w [g [u [P R]]]]. apply still_flat with (b := b) in P as [-> Hs]; [|exact Hf|now repeat split].
    apply kbind_inv in R as [w' [g [u' [P R]]]]. apply present_inv in P as [_ [-> ->]].
    apply kbind_inv in R as [[] [g [u' [P R]]]]. apply io_inv in P as [P ->]. rewrite seek_still with (b := b) in P by exact Hs. match type of P with (_, ?t0) = _ => assert (u' = t0) as -> by congruence end. clear P.
    apply kbind_inv in R as [[] [g [u' [P R]]]]. apply put_inv in P as [-> ->]. apply kret_inv in R as [-> [-> ->]]. split; [reflexivity|]. now rewrite at_aligned_state by exact Ha. }
  apply T in R1 as [-> ->]. apply T in R2 as [-> ->]. apply join_put in J as ->. split; [reflexivity|]. exists o. now repeat split; try apply Hh.
Qed.
Definition Se e := steady e = true -> forall item fs o, o mod 8 = 0 -> steadyR (eval rt e item) o fs.
Definition Si i := steady_inst i = true -> forall fs o, o mod 8 = 0 -> steadyR (run_inst rt i) o fs.
Lemma mild_pos p : (Se p) -> steady p || no_inst p = true -> forall item fs o, o mod 8 = 0 -> mildR (eval rt p item) o fs.
Proof.
  intros H E item fs o Ha. apply orb_true_iff in E as [E|E]; [apply steady_mild, H; assumption|]. apply R_quiet. now apply quiet_eval.
Qed.
Lemma steady_eval_inst :
  (forall e, Se e) /\ (forall i, Si i) /\ (forall t : ty, True) /\ (forall cs : cases, True) /\ (forall k : key, True) /\ (forall r : rep, True) /\ (forall q : attr_list, True) /\ (forall t : typ, True).
Proof.
  apply (ksy_mind Se Si (fun _ => True) (fun _ => True) (fun _ => True) (fun _ => True) (fun _ => True) (fun _ => True)); try (intros; exact I); unfold Si; try (unfold Se; cbn [steady]; intros; discriminate).
  all: try (unfold Se; cbn [steady]; intros; cbn [eval]; bools; repeat match goal with H : ?x = true -> _, H' : ?x = true |- _ => specialize (H H') end;
            repeat match goal with H : forall item fs o, o mod 8 = 0 -> steadyR _ _ _, H' : ?o mod 8 = 0 |- _ => pose proof (fun item fs => H item fs o H'); clear H end; solve [sk]).
  - intros sc i IH Hi item fs o Ha. cbn [steady] in Hi. apply (S_inst sc (run_inst rt i)). now apply IH.
  - intros x e IH Hi fs o Ha. cbn [steady_inst] in Hi.
    apply (cached_rel ("_m_" ++ x) (v <~ eval rt e VNone;; _ <~ put ("_m_" ++ x) v;; kret v)). intros _.
    apply S_bind; [now apply IH|intros; wk|]. intros v f. apply S_bind; [apply S_put|intros; wk|]. intros _ f'. apply S_ret.
  - intros x c IHc p IHp en t _ Hi fs o Ha. cbn [steady_inst] in Hi. bools.
    apply (cached_rel ("_m_" ++ x) (c <~ eval rt c VNone;; c <~ need_bool c;;
           if (c : bool) then
             back <~ io io_pos;; p <~ eval rt p VNone;; p <~ need_int p;; _ <~ io (io_seek rt p);;
             v <~ run_ty rt "" en t;; v <~ present v;; _ <~ io (io_seek rt back);; _ <~ put ("_m_" ++ x) v;; kret v
           else kret VNone)). intros _.
    apply S_bind; [now apply IHc|intros; wk; first [apply we|apply wty]|]. intros v f. apply S_bind; [apply S_bool|intros; wk; first [apply we|apply wty]|]. intros d f'.
    destruct d; [|apply S_ret]. apply M_at; [assumption|exact Ha|]. intros g. now apply mild_pos.
Qed.
Lemma steady_eval e : steady e = true -> forall item fs o, o mod 8 = 0 -> steadyR (eval rt e item) o fs.
Proof. apply steady_eval_inst. Qed.
Lemma mild1 e : steady e || no_inst e = true -> forall item fs o, o mod 8 = 0 -> mildR (eval rt e item) o fs.
Proof. apply mild_pos. exact (steady_eval e). Qed.
Lemma R_quiet2 {A} (m1 m2 : K A) o fs H : quiet m1 -> quiet m2 -> Rel m1 m2 o fs H (fun _ _ o' => o' = o).
Proof. intros Q1 Q2 v1 f1 s1 v2 f2 s2 Hh R1 R2 J Hv. pose proof Hh as [B1 _]. apply Q1 in R1 as [-> ->]; [|lia]. apply Q2 in R2 as [-> ->]; [|lia]. split; [reflexivity|]. exists o. now repeat split; try apply Hh. Qed.
Lemma mild_eval e : mild e = true -> forall item fs o, o mod 8 = 0 -> mildR (eval rt e item) o fs.
Proof.
  unfold mild. intros H item fs o Ha. apply orb_true_iff in H as [H|H]; [now apply mild1|]. destruct e; try discriminate. bools. cbn [eval].
  eapply R_bind; [apply mild1; eassumption|intros; wk; apply we|intros; wk; apply we|]. cbv beta. intros a1 a2 f o' _ ->.
  eapply R_bind; [apply R_quiet2; apply q_int|intros; wk; apply we|intros; wk; apply we|]. cbv beta. intros n1 n2 g o'' _ ->.
  eapply R_bind; [apply mild1; eassumption|intros; wk; apply we|intros; wk; apply we|]. cbv beta. intros c1 c2 g' o'' _ ->.
  eapply R_bind; [apply R_quiet2; apply q_int|intros; wk; apply we|intros; wk; apply we|]. cbv beta. intros m1 m2 g'' o'' _ ->.
  apply R_quiet2; apply q_ret.
Qed.
Lemma mild_int e : mild e = true -> forall item fs o, o mod 8 = 0 -> Rel (n <~ eval rt e item;; need_int n) (n <~ eval rt e item;; need_int n) o fs yes (fun _ _ o' => o' = o).
Proof.
  intros H item fs o Ha. eapply R_bind; [now apply mild_eval|intros; wk|intros; wk|]. cbv beta. intros a1 a2 f o' _ ->. apply R_quiet2; apply q_int.
Qed.
Lemma mild_bool e : mild e = true -> forall item fs o, o mod 8 = 0 -> Rel (n <~ eval rt e item;; need_bool n) (n <~ eval rt e item;; need_bool n) o fs yes (fun _ _ o' => o' = o).
Proof.
  intros H item fs o Ha. eapply R_bind; [now apply mild_eval|intros; wk|intros; wk|]. cbv beta. intros a1 a2 f o' _ ->. apply R_quiet2; apply q_bool.
Qed.

(** ** Types *)
Definition whole {A} (m1 m2 : K A) : Prop := forall o fs, o mod 8 = 0 -> Rel m1 m2 o fs eq (fun _ _ o' => o' mod 8 = 0).
Lemma whole_leaf (m1 m2 : M pyval) : leaf m1 m2 -> whole (v <~ io m1;; kret (Some v)) (v <~ io m2;; kret (Some v)).
Proof.
  intros H o fs Ha v1 f1 s1 v2 f2 s2 Hh R1 R2 J Hv. apply kbind_inv in R1 as [a1 [g1 [t1 [R1 Q1]]]]. apply kbind_inv in R2 as [a2 [g2 [t2 [R2 Q2]]]].
  apply kret_inv in Q1 as [-> [-> ->]]. apply kret_inv in Q2 as [-> [-> ->]]. apply io_inv in R1 as [R1 ->]. apply io_inv in R2 as [R2 ->].
  assert (a1 = a2) as <- by congruence. split; [reflexivity|]. exact (H _ _ _ _ Hh Ha R1 R2).
Qed.
(** what follows keeps the value *)
Lemma R_filter {A} (m : K A) (k : A -> K A) o fs C : (forall a f s v f' s', k a f s = (Ok (v, f'), s') -> v = a /\ f' = f /\ s' = s) -> Rel m m o fs eq C -> Rel (kbind m k) (kbind m k) o fs eq C.
Proof.
  intros Hk H v1 f1 s1 v2 f2 s2 Hh R1 R2 J Hv. apply kbind_inv in R1 as [a1 [g1 [t1 [R1 Q1]]]]. apply kbind_inv in R2 as [a2 [g2 [t2 [R2 Q2]]]].
  apply Hk in Q1 as [-> [-> ->]]. apply Hk in Q2 as [-> [-> ->]]. eapply H; eassumption.
Qed.
(** the result shows the intermediate value *)
Lemma R_shown {A B} (m : K A) (k1 k2 : A -> K B) (shown : B -> option A) o fs C' C : Rel m m o fs eq C' ->
  (forall a, grows (k1 a)) -> (forall a, grows (k2 a)) ->
  (forall a f s v f' s', k1 a f s = (Ok (v, f'), s') -> shown v = Some a) -> (forall a f s v f' s', k2 a f s = (Ok (v, f'), s') -> shown v = Some a) ->
  (forall a f o', here o' -> C' a a o' -> Rel (k1 a) (k2 a) o' f eq C) -> Rel (kbind m k1) (kbind m k2) o fs eq C.
Proof.
  intros Hm G1 G2 S1 S2 Hk v1 f1 s1 v2 f2 s2 Hh R1 R2 J Hv. apply kbind_inv in R1 as [a1 [g1 [t1 [R1 Q1]]]]. apply kbind_inv in R2 as [a2 [g2 [t2 [R2 Q2]]]].
  assert (J' : joinable g1 g2) by (eapply join_back; [exact J|eapply G1; eassumption|eapply G2; eassumption]).
  pose proof (S1 _ _ _ _ _ _ Q1). pose proof (S2 _ _ _ _ _ _ Q2). assert (a1 = a2) as <- by congruence.
  destruct (Hm _ _ _ _ _ _ Hh R1 R2 J' eq_refl) as [<- [o' [-> [-> [Hh' HC]]]]]. eapply Hk; eassumption.
Qed.
Lemma whole_present m : whole m m -> whole (v <~ m;; present v) (v <~ m;; present v).
Proof.
  intros H o fs Ha. eapply R_shown with (shown := fun v => Some (Some v)); [apply H; exact Ha|intros; wk|intros; wk| | |].
  - intros a f s v f' s' E. apply present_inv in E as [-> _]. reflexivity.
  - intros a f s v f' s' E. apply present_inv in E as [-> _]. reflexivity.
  - cbv beta. intros a f o' Hh Ha' v1 f1 s1 v2 f2 s2 _ R1 R2 J Hv. apply present_inv in R1 as [_ [-> ->]]. apply present_inv in R2 as [_ [-> ->]]. split; [reflexivity|]. exists o'. auto.
Qed.
Lemma whole_some m : whole m m -> whole (l <~ m;; kret (Some (VList l))) (l <~ m;; kret (Some (VList l))).
Proof.
  intros H o fs Ha. eapply R_shown with (shown := fun v => match v with Some (VList l) => Some l | _ => None end); [apply H; exact Ha|intros; wk|intros; wk| | |].
  - intros a f s v f' s' E. apply kret_inv in E as [-> _]. reflexivity.
  - intros a f s v f' s' E. apply kret_inv in E as [-> _]. reflexivity.
  - cbv beta. intros a f o' Hh Ha' v1 f1 s1 v2 f2 s2 _ R1 R2 J Hv. apply kret_inv in R1 as [_ [-> ->]]. apply kret_inv in R2 as [_ [-> ->]]. split; [reflexivity|]. exists o'. auto.
Qed.
Lemma whole_ret {A} (a : A) : whole (kret a) (kret a).
Proof. intros o fs Ha. eapply R_weak; [apply R_quiet, q_ret|intros a1 a2 E; exact E|]. now intros a1 a2 o' _ ->. Qed.
Lemma whole_cons body (k1 k2 : K (list pyval)) : whole body body -> grows k1 -> grows k2 -> whole k1 k2 ->
  whole (v <~ body;; l <~ k1;; kret (v :: l)) (v <~ body;; l <~ k2;; kret (v :: l)).
Proof.
  intros Hb G1 G2 Hk o fs Ha.
  assert (Sh : forall (k : K (list pyval)) a f s v f' s', (l <~ k;; kret (a :: l)) f s = (Ok (v, f'), s') -> hd_error v = Some a).
  { intros k a f s v f' s' E. apply kbind_inv in E as [l [g [t [_ E]]]]. apply kret_inv in E as [-> _]. reflexivity. }
  eapply R_shown with (shown := @hd_error pyval); [apply Hb; exact Ha|intros; wk|intros; wk|apply Sh|apply Sh|].
  cbv beta. intros a f o' Hh Ha' v1 f1 s1 v2 f2 s2 _ R1 R2 J Hv. apply kbind_inv in R1 as [l1 [g1 [t1 [R1 Q1]]]]. apply kbind_inv in R2 as [l2 [g2 [t2 [R2 Q2]]]].
  apply kret_inv in Q1 as [-> [-> ->]]. apply kret_inv in Q2 as [-> [-> ->]]. assert (l1 = l2) as <- by congruence. exact (Hk o' f Ha' _ _ _ _ _ _ Hh R1 R2 J eq_refl).
Qed.
Lemma whole_times body n1 : whole body body -> grows body -> forall n2, whole (times body n1) (times body n2).
Proof.
  intros Hb G. induction n1 as [|n1 IH]; intros [|n2]; cbn [times].
  - apply whole_ret.
  - intros o fs Ha v1 f1 s1 v2 f2 s2 _ R1 R2 J Hv. apply kret_inv in R1 as [-> _]. apply kbind_inv in R2 as [a [g [t [_ R2]]]]. apply kbind_inv in R2 as [l [g' [t' [_ R2]]]]. apply kret_inv in R2 as [-> _]. discriminate.
  - intros o fs Ha v1 f1 s1 v2 f2 s2 _ R1 R2 J Hv. apply kret_inv in R2 as [-> _]. apply kbind_inv in R1 as [a [g [t [_ R2]]]]. apply kbind_inv in R2 as [l [g' [t' [_ R2]]]]. apply kret_inv in R2 as [-> _]. discriminate.
  - apply whole_cons; [exact Hb|now apply w_times|now apply w_times|apply IH].
Qed.
Lemma whole_eof body n1 : whole body body -> grows body -> forall n2, whole (until_eof rt body n1) (until_eof rt body n2).
Proof.
  intros Hb G. induction n1 as [|n1 IH]; intros n2; [intros o fs Ha v1 f1 s1 v2 f2 s2 _ R1; discriminate|]. destruct n2 as [|n2]; [intros o fs Ha v1 f1 s1 v2 f2 s2 _ R1 R2; discriminate|].
  cbn [until_eof]. intros o fs Ha. pose proof (fun n => w_eof rt body n G) as We'.
  eapply R_bind; [apply R_quiet, q_eof|intros; wk|intros; wk|]. cbv beta. intros [|] [|] f o' _ ->; [now apply whole_ret| | |].
  - intros v1 f1 s1 v2 f2 s2 _ R1 R2 J Hv. apply kret_inv in R1 as [-> _]. apply kbind_inv in R2 as [a [g [t [_ R2]]]]. apply kbind_inv in R2 as [l [g' [t' [_ R2]]]]. apply kret_inv in R2 as [-> _]. discriminate.
  - intros v1 f1 s1 v2 f2 s2 _ R1 R2 J Hv. apply kret_inv in R2 as [-> _]. apply kbind_inv in R1 as [a [g [t [_ R2]]]]. apply kbind_inv in R2 as [l [g' [t' [_ R2]]]]. apply kret_inv in R2 as [-> _]. discriminate.
  - apply whole_cons; [exact Hb|apply We'|apply We'|apply IH|exact Ha].
Qed.
Lemma whole_until body stop n1 : whole body body -> grows body -> (forall v, grows (stop v)) -> (forall v o fs, o mod 8 = 0 -> Rel (stop v) (stop v) o fs yes (fun _ _ o' => o' = o)) ->
  forall n2, whole (until body stop n1) (until body stop n2).
Proof.
  intros Hb G Gs Hs. pose proof (fun n => w_until body stop n G Gs) as Wu. induction n1 as [|n1 IH]; intros n2; [intros o fs Ha v1 f1 s1 v2 f2 s2 _ R1; discriminate|]. destruct n2 as [|n2]; [intros o fs Ha v1 f1 s1 v2 f2 s2 _ R1 R2; discriminate|].
  cbn [until]. intros o fs Ha.
  assert (Sh : forall n a f s v f' s', (e <~ stop a;; if (e : bool) then kret [a] else l <~ until body stop n;; kret (a :: l)) f s = (Ok (v, f'), s') ->
    exists e l g, v = a :: l /\ if (e : bool) then l = [] else exists t t', until body stop n g t = (Ok (l, f'), t')).
  { intros n a f s v f' s' E. apply kbind_inv in E as [e [g [t [_ E]]]]. exists e. destruct e.
    - apply kret_inv in E as [-> _]. now exists [], g.
    - apply kbind_inv in E as [l [g' [t' [E1 E]]]]. apply kret_inv in E as [-> [-> ->]]. exists l, g. split; [reflexivity|]. now exists t, t'. }
  eapply R_shown with (shown := @hd_error pyval); [apply Hb; exact Ha|intros; wk|intros; wk| | |].
  - intros a f s v f' s' E. apply Sh in E as [e [l [g [-> _]]]]. reflexivity.
  - intros a f s v f' s' E. apply Sh in E as [e [l [g [-> _]]]]. reflexivity.
  - clear Sh. cbv beta. intros a f o' Hh Ha'. eapply R_bind; [now apply Hs|intros; wk|intros; wk|]. cbv beta.
    assert (Ne : forall n f s v f' s', until body stop n f s = (Ok (v, f'), s') -> v <> []).
    { intros n f0 s v f' s' E. destruct n; cbn [until] in E; [discriminate|]. apply kbind_inv in E as [w [g [t [_ E]]]]. apply kbind_inv in E as [e [g' [t' [_ E]]]]. destruct e.
      - apply kret_inv in E as [-> _]. discriminate.
      - apply kbind_inv in E as [l [g'' [t'' [_ E]]]]. apply kret_inv in E as [-> _]. discriminate. }
    intros [|] [|] f' o'' _ ->; [now apply whole_ret| | |].
    + intros v1 f1 s1 v2 f2 s2 _ R1 R2 J Hv. apply kret_inv in R1 as [-> _]. apply kbind_inv in R2 as [l [g' [t' [R3 R2]]]]. apply kret_inv in R2 as [-> _]. apply Ne in R3. congruence.
    + intros v1 f1 s1 v2 f2 s2 _ R1 R2 J Hv. apply kret_inv in R2 as [-> _]. apply kbind_inv in R1 as [l [g' [t' [R3 R2]]]]. apply kret_inv in R2 as [-> _]. apply Ne in R3. congruence.
    + intros v1 f1 s1 v2 f2 s2 Hh2 R1 R2 J Hv. apply kbind_inv in R1 as [l1 [g1 [t1 [R1 Q1]]]]. apply kbind_inv in R2 as [l2 [g2 [t2 [R2 Q2]]]].
      apply kret_inv in Q1 as [-> [-> ->]]. apply kret_inv in Q2 as [-> [-> ->]]. assert (l1 = l2) as <- by congruence. exact (IH n2 o' f' Ha' _ _ _ _ _ _ Hh2 R1 R2 J eq_refl).
Qed.
Lemma whole_turns {A} (loop : nat -> K A) : (forall n1 n2, whole (loop n1) (loop n2)) -> whole (turns loop) (turns loop).
Proof. intros H o fs Ha v1 f1 s1 v2 f2 s2 Hh R1 R2 J Hv. unfold turns in R1, R2. eapply H; eassumption. Qed.

(** ** Objects and cases *)
Lemma typ_inv path q fs s v f s' : run_typ rt (Typ path q) fs s = (Ok (v, f), s') ->
  exists h, v = VObj (class_name path) h /\ run_attrs rt path 0 false q ([] :: fs) s = (Ok (tt, h :: f), s').
Proof.
  intros H. change ((r0 <- run_attrs rt path 0 false q ([] :: fs);; ret (VObj (class_name path) (hd [] (snd r0)), tl (snd r0))) s = (Ok (v, f), s')) in H.
  apply bind_inv in H as [[[] g] [s0 [H1 H2]]]. pose proof (wq rt q path 0%nat false _ _ _ _ _ H1) as E. apply ext_cons in E as [h [g' [-> _]]]. unfold ret in H2. cbn [snd hd tl] in H2.
  exists h. assert (s0 = s') as -> by congruence. assert (g' = f) as -> by congruence. split; [congruence|exact H1].
Qed.
Lemma imported_inv t loc en fs s v f s' : run_ty rt loc en (TImported t) fs s = (Ok (v, f), s') -> f = fs /\ exists w g, v = Some w /\ run_typ rt t [] s = (Ok (w, g), s').
Proof.
  intros H. change ((r <- run_typ rt t [];; ret (Some (fst r), fs)) s = (Ok (v, f), s')) in H. apply bind_inv in H as [[w g] [s0 [H1 H2]]]. unfold ret in H2. cbn [fst] in H2.
  split; [congruence|]. exists w, g. split; [congruence|]. assert (s0 = s') as <- by congruence. exact H1.
Qed.
Lemma local_inv t loc en fs s v f s' : run_ty rt loc en (TLocal t) fs s = (Ok (v, f), s') -> exists w, v = Some w /\ run_typ rt t fs s = (Ok (w, f), s').
Proof.
  intros H. change ((v <~ run_typ rt t;; kret (Some v)) fs s = (Ok (v, f), s')) in H. apply kbind_inv in H as [w [g [t0 [H1 H2]]]]. apply kret_inv in H2 as [-> [-> ->]]. eauto.
Qed.
Lemma ty_class t c loc en fs s v f s' : class_of t = Some c -> run_ty rt loc en t fs s = (Ok (v, f), s') -> exists a, v = Some (VObj c a).
Proof.
  intros Hc R. destruct t as [| | | | | | | | |[p q]|[p q]| |]; try discriminate; cbn [class_of] in Hc; assert (c = class_name p) as -> by congruence.
  - apply imported_inv in R as [_ [w [g [-> R]]]]. apply typ_inv in R as [h [-> _]]. eauto.
  - apply local_inv in R as [w [-> R]]. apply typ_inv in R as [h [-> _]]. eauto.
Qed.
Lemma cases_class cs : distinct cs = true -> forall loc en k fs s v f s', run_cases rt loc en k cs fs s = (Ok (v, f), s') -> v = None \/ exists c a, v = Some (VObj c a) /\ In c (classes cs).
Proof.
  induction cs as [|t|ky t cs IH]; cbn [distinct classes]; intros D loc en k fs s v f s' R.
  - left. now apply kret_inv in R.
  - destruct (class_of t) as [c|] eqn:E; [|discriminate]. destruct (ty_class t c loc en fs s v f s' E R) as [a ->]. right. exists c, a. split; [reflexivity|now left].
  - apply andb_true_iff in D as [D1 D2]. destruct (class_of t) as [c|] eqn:E; [|discriminate]. cbn [run_cases] in R. match type of R with (if ?c then _ else _) _ _ = _ => destruct c end.
    + destruct (ty_class t c loc en fs s v f s' E R) as [a ->]. right. exists c, a. split; [reflexivity|now left].
    + destruct (IH D2 _ _ _ _ _ _ _ _ R) as [->|[c' [a [-> Hi]]]]; [now left|]. right. exists c', a. split; [reflexivity|now right].
Qed.
Definition Pty t := ty_keeps t = true -> forall loc en, whole (run_ty rt loc en t) (run_ty rt loc en t).
Definition Pcs cs := cases_keep cs = true -> forall loc en k1 k2, k1 = k2 \/ distinct cs = true -> whole (run_cases rt loc en k1 cs) (run_cases rt loc en k2 cs).
Definition arrives (l : option Z) (o : Z) : Prop := match l with Some k => o mod 8 = k | None => True end.
Definition Pq q := forall l l', seq_keeps q l = Some l' -> forall path i after o a fs h1 g1 s1 h2 g2 s2, arrives l o -> here o ->
  run_attrs rt path i after q (a :: fs) (at_ b1 0 o) = (Ok (tt, h1 :: g1), s1) -> run_attrs rt path i after q (a :: fs) (at_ b2 0 o) = (Ok (tt, h2 :: g2), s2) ->
  joinable g1 g2 -> h1 = h2 -> g1 = g2 /\ exists o', s1 = at_ b1 0 o' /\ s2 = at_ b2 0 o' /\ here o' /\ arrives l' o'.
Definition Pt t := typ_keeps t = true -> whole (run_typ rt t) (run_typ rt t).

Lemma typ_case path q : Pq q -> Pt (Typ path q).
Proof.
  intros IH K o fs Ha v1 f1 s1 v2 f2 s2 Hh R1 R2 J Hv. apply typ_inv in R1 as [h1 [-> R1]]. apply typ_inv in R2 as [h2 [-> R2]]. assert (h1 = h2) as E by congruence.
  cbn [typ_keeps] in K. destruct (seq_keeps q (Some 0)) as [l'|] eqn:Q; [|discriminate]. destruct l' as [k|]; [|discriminate]. destruct k; try discriminate.
  destruct (IH _ _ Q path 0%nat false o [] fs _ _ _ _ _ _ Ha Hh R1 R2 J E) as [<- [o' [E1 [E2 [Hh' Hl]]]]]. split; [reflexivity|]. exists o'. auto.
Qed.
Lemma imported_case t : Pt t -> Pty (TImported t).
Proof.
  intros IH K loc en o fs Ha v1 f1 s1 v2 f2 s2 Hh R1 R2 J Hv. cbn [ty_keeps] in K. apply andb_true_iff in K as [K D].
  apply imported_inv in R1 as [-> [w1 [g1 [-> R1]]]]. apply imported_inv in R2 as [-> [w2 [g2 [-> R2]]]]. assert (w1 = w2) as E by congruence.
  pose proof (lt rt t D _ _ _ _ _ R1) as L1. pose proof (lt rt t D _ _ _ _ _ R2) as L2. destruct g1; [|discriminate]. destruct g2; [|discriminate].
  destruct (IH K o [] Ha _ _ _ _ _ _ Hh R1 R2 (join_refl []) E) as [_ [o' X]]. split; [reflexivity|]. exists o'. exact X.
Qed.
Lemma local_case t : Pt t -> Pty (TLocal t).
Proof.
  intros IH K loc en o fs Ha v1 f1 s1 v2 f2 s2 Hh R1 R2 J Hv. cbn [ty_keeps] in K.
  apply local_inv in R1 as [w1 [-> R1]]. apply local_inv in R2 as [w2 [-> R2]]. assert (w1 = w2) as E by congruence. exact (IH K o fs Ha _ _ _ _ _ _ Hh R1 R2 J E).
Qed.
Lemma more_case k t cs : Pty t -> Pcs cs -> Pcs (CCons k t cs).
Proof.
  intros IHt IHc K loc en k1 k2 Hk o fs Ha. cbn [cases_keep] in K. apply andb_true_iff in K as [K1 K2]. cbn [run_cases].
  assert (Hd : distinct (CCons k t cs) = true -> distinct cs = true) by (cbn [distinct]; intros D; now apply andb_true_iff in D as [_ D]).
  assert (Mis : distinct (CCons k t cs) = true -> forall y v1 f1 s1 v2 f2 s2 t1 t2, run_ty rt loc en t fs t1 = (Ok (v1, f1), s1) -> run_cases rt loc en y cs fs t2 = (Ok (v2, f2), s2) -> v1 <> v2).
  { cbn [distinct]. intros D y v1 f1 s1 v2 f2 s2 t1 t2 R1 R2. apply andb_true_iff in D as [D1 D2]. destruct (class_of t) as [c|] eqn:E; [|discriminate]. apply (ty_class t c) in R1 as [a ->]; [|exact E].
    apply cases_class in R2 as [->|[c' [a' [-> Hi]]]]; [discriminate| |exact D2]. intros X. assert (c' = c) as -> by congruence. apply negb_true_iff in D1. apply not_true_iff_false in D1. apply D1, existsb_exists. exists c. split; [exact Hi|apply String.eqb_refl]. }
  set (m y := match k with KInt z => match y with VInt w => w =? z | _ => false end | KText x => match y with VStr w => str_eqb w x | _ => false end | KMember E n => eq_member E n y end).
  change (Rel (if m k1 then run_ty rt loc en t else run_cases rt loc en k1 cs) (if m k2 then run_ty rt loc en t else run_cases rt loc en k2 cs) o fs eq (fun _ _ o' => o' mod 8 = 0)).
  destruct (m k1) eqn:E1, (m k2) eqn:E2.
  - now apply IHt.
  - destruct Hk as [->|D]; [congruence|]. intros v1 f1 s1 v2 f2 s2 _ R1 R2 _ Hv. now destruct (Mis D _ _ _ _ _ _ _ _ _ R1 R2).
  - destruct Hk as [->|D]; [congruence|]. intros v1 f1 s1 v2 f2 s2 _ R1 R2 _ Hv. symmetry in Hv. now destruct (Mis D _ _ _ _ _ _ _ _ _ R2 R1).
  - apply IHc; [exact K2| |exact Ha]. destruct Hk; auto.
Qed.
Lemma switch_case e cs : Pcs cs -> Pty (TSwitch e cs).
Proof.
  intros IH K loc en o fs Ha. cbn [ty_keeps] in K. apply andb_true_iff in K as [K1 K2].
  change (Rel (v <~ eval rt e VNone;; run_cases rt loc en v cs) (v <~ eval rt e VNone;; run_cases rt loc en v cs) o fs eq (fun _ _ o' => o' mod 8 = 0)).
  apply orb_true_iff in K1 as [K1|K1].
  - eapply R_bind; [now apply steady_eval|intros; apply wcs|intros; apply wcs|]. cbv beta. intros a1 a2 f o' _ [-> <-]. apply IH; auto.
  - apply andb_true_iff in K1 as [K1 D]. eapply R_bind; [now apply mild_eval|intros; apply wcs|intros; apply wcs|]. cbv beta. intros a1 a2 f o' _ ->. apply IH; auto.
Qed.
Lemma valid_inv t z loc en fs s v f s' : run_ty rt loc en (TValid t z) fs s = (Ok (v, f), s') -> run_ty rt loc en t fs s = (Ok (v, f), s').
Proof.
  intros H. change ((v <~ run_ty rt loc en t;; v <~ present v;; n <~ need_int v;; if n =? z then kret (Some v) else fun _ => fail (ValidationNotEqualError (VInt z) v loc)) fs s = (Ok (v, f), s')) in H.
  apply kbind_inv in H as [o [g [t0 [H0 H]]]]. apply kbind_inv in H as [w [g' [t' [H1 H]]]]. apply present_inv in H1 as [-> [-> ->]].
  apply kbind_inv in H as [n [g' [t' [H1 H]]]]. apply need_int_inv in H1 as [-> [-> ->]]. destruct (n =? z); [|discriminate]. apply kret_inv in H as [-> [-> ->]]. exact H0.
Qed.
Lemma valid_case t z : Pty t -> Pty (TValid t z).
Proof.
  intros IH K loc en o fs Ha v1 f1 s1 v2 f2 s2 Hh R1 R2 J Hv. apply valid_inv in R1, R2. eapply (IH K); eassumption.
Qed.
Lemma sized_leaf e (m : Z -> M pyval) : mild e = true -> (forall n1 n2, leaf (m n1) (m n2)) -> whole (n <~ eval rt e VNone;; n <~ need_int n;; v <~ io (m n);; kret (Some v)) (n <~ eval rt e VNone;; n <~ need_int n;; v <~ io (m n);; kret (Some v)).
Proof.
  intros K H o fs Ha. eapply R_bind; [now apply mild_eval|intros; wk|intros; wk|]. cbv beta. intros a1 a2 f o' _ ->.
  eapply R_bind; [apply R_quiet2; apply q_int|intros; wk|intros; wk|]. cbv beta. intros n1 n2 g o'' _ ->. now apply whole_leaf.
Qed.

(** ** Bit fields *)
Lemma width_bits t n : width t = Some n -> is_bits t = true /\ 0 < n.
Proof.
  destruct t as [k| | | | | | | |t z| | | |]; try discriminate; cbn [width is_bits].
  - destruct (Z.ltb_spec 0 k); [|discriminate]. intros E. split; [reflexivity|congruence].
  - intros E. split; [reflexivity|]. assert (n = 1) as -> by congruence. lia.
  - destruct t as [k| | | | | | | | | | | |]; try discriminate. destruct (Z.ltb_spec 0 k); [|discriminate]. intros E. split; [reflexivity|congruence].
Qed.
Lemma bit_ty t n loc en o fs : width t = Some n -> forall v f1 s1 f2 s2, here o ->
  run_ty rt loc en t fs (at_ b1 0 o) = (Ok (v, f1), s1) -> run_ty rt loc en t fs (at_ b2 0 o) = (Ok (v, f2), s2) -> f1 = fs /\ f2 = fs /\ s1 = at_ b1 0 (o + n) /\ s2 = at_ b2 0 (o + n) /\ here (o + n).
Proof.
  assert (L : forall m : M pyval, bit_leaf m n -> forall v f1 s1 f2 s2, here o -> (v <~ io m;; kret (Some v)) fs (at_ b1 0 o) = (Ok (v, f1), s1) -> (v <~ io m;; kret (Some v)) fs (at_ b2 0 o) = (Ok (v, f2), s2) ->
     f1 = fs /\ f2 = fs /\ s1 = at_ b1 0 (o + n) /\ s2 = at_ b2 0 (o + n) /\ here (o + n)).
  { intros m Hm v f1 s1 f2 s2 Hh R1 R2. apply kbind_inv in R1 as [a1 [g1 [t1 [R1 Q1]]]]. apply kbind_inv in R2 as [a2 [g2 [t2 [R2 Q2]]]].
    apply kret_inv in Q1 as [-> [-> ->]]. apply kret_inv in Q2 as [E [-> ->]]. apply io_inv in R1 as [R1 ->]. apply io_inv in R2 as [R2 ->]. assert (a2 = a1) as -> by congruence.
    split; [reflexivity|]. split; [reflexivity|]. exact (Hm _ _ _ _ Hh R1 R2). }
  assert (Lb : forall k, (if 0 <? k then Some k else None) = Some n -> bit_leaf (as_enum en (read_bits k)) n).
  { intros k. destruct (Z.ltb_spec 0 k); [|discriminate]. intros E. assert (k = n) as -> by congruence. now apply leaf_vbits. }
  destruct t as [k| | | | | | | |t z| | | |]; try discriminate; cbn [width]; intros W v f1 s1 f2 s2 Hh R1 R2.
  - exact (L _ (Lb k W) _ _ _ _ _ Hh R1 R2).
  - assert (n = 1) as -> by congruence. exact (L _ leaf_vflag _ _ _ _ _ Hh R1 R2).
  - destruct t as [k| | | | | | | | | | | |]; try discriminate. apply valid_inv in R1, R2. exact (L _ (Lb k W) _ _ _ _ _ Hh R1 R2).
Qed.
Lemma bit_some t n loc en fs s v f s' : width t = Some n -> run_ty rt loc en t fs s = (Ok (v, f), s') -> exists w, v = Some w.
Proof.
  intros W R. destruct t as [k| | | | | | | |t z| | | |]; try discriminate; [| |apply valid_inv in R; destruct t; try discriminate].
  all: cbn [run_ty] in R; apply kbind_inv in R as [a [g [u [_ R]]]]; apply kret_inv in R as [-> _]; eauto.
Qed.

(** ** Attribute lists *)
Lemma keeps_names q : forall l l', seq_keeps q l = Some l' -> seq_names q = true.
Proof.
  induction q as [|x c r en t q IH]; cbn [seq_keeps seq_names]; intros l l' K; [reflexivity|].
  destruct (is_cache x); [discriminate|]. cbn [negb andb] in *. destruct (negb (existsb (String.eqb x) (names q))); [|discriminate].
  destruct (width t) as [n|] eqn:W.
  - destruct r; try discriminate. destruct (no_inst c); [|discriminate]. rewrite (IH _ _ K), andb_true_r. destruct t as [| | | | | | | |t z| | | |]; try discriminate; try reflexivity. destruct t; try discriminate; reflexivity.
  - match type of K with (if ?c then _ else _) = _ => destruct c eqn:E; [|discriminate] end. bools. rewrite (IH _ _ K), andb_true_r. assumption.
Qed.
Lemma wf_at b o : wf (at_ b 0 o).
Proof. Local Transparent at_. unfold wf, at_. cbn [s_left s_bits]. pose proof (Z.mod_pos_bound (- o) 8 ltac:(lia)). split; [assumption|]. apply ubits_bound. lia. Local Opaque at_. Qed.
Lemma attributes_named q a : has_attributes q a -> forall x v, In (x, v) a -> In x (names q).
Proof.
  revert a. induction q as [|y c r en t q IH]; intros a H x v Hi; inversion H; subst; [destruct Hi| |].
  - destruct Hi as [E|Hi]; [left; congruence|]. right. eapply IH; eassumption.
  - right. eapply IH; eassumption.
Qed.
Definition put_one (x : string) (o : option pyval) : attrs := match o with Some v => [(x, v)] | None => [] end.
(** one attribute, then the others *)
Lemma attr_inv path i after x c r en t q a fs b o h g s' : is_cache x = false -> seq_names q = true -> (is_bits t = false -> o mod 8 = 0) ->
  run_attrs rt path i after (Attr x c r en t q) (a :: fs) (at_ b 0 o) = (Ok (tt, h :: g), s') ->
  exists d f1 s1 f2 s2 w new, (v <~ eval rt c VNone;; need_bool v) (a :: fs) (at_ b 0 o) = (Ok (d, f1), s1) /\
    (if (d : bool) then run_rep rt (run_ty rt (attr_path path i) en t) r f1 s1 = (Ok (w, f2), s2) else w = None /\ f2 = f1 /\ s2 = s1) /\
    run_attrs rt path (S i) (is_bits t) q ((hd [] f2 ++ put_one x w) :: tl f2) s2 = (Ok (tt, h :: g), s') /\
    f2 = hd [] f2 :: tl f2 /\ public h = public a ++ put_one x w ++ new /\ has_attributes q new /\ public (hd [] f2) = public a.
Proof.
  intros Hx Hn Ha R.
  change ((_ <~ (if after && negb (is_bits t) then io align_to_byte else kret tt);; c <~ eval rt c VNone;; c <~ need_bool c;;
      _ <~ (if (c : bool) then v <~ run_rep rt (run_ty rt (attr_path path i) en t) r;; match v with Some v => put x v | None => kret tt end else kret tt);;
      run_attrs rt path (S i) (is_bits t) q) (a :: fs) (at_ b 0 o) = (Ok (tt, h :: g), s')) in R.
  apply kbind_inv in R as [[] [f0 [s0 [R0 R]]]].
  assert (f0 = a :: fs /\ s0 = at_ b 0 o) as [-> ->].
  { destruct after; cbn [andb] in R0; [|apply kret_inv in R0 as [_ [-> ->]]; now split]. destruct (is_bits t) eqn:Eb; cbn [negb] in R0; [apply kret_inv in R0 as [_ [-> ->]]; now split|].
    apply io_inv in R0 as [R0 ->]. split; [reflexivity|]. apply runM_ok in R0. rewrite run_align in R0 by (now apply Ha). congruence. }
  apply kbind_inv in R as [v [fv [sv [Rv R]]]]. apply kbind_inv in R as [d [f1 [s1 [Rd R]]]]. apply need_bool_inv in Rd as [-> [-> ->]]. apply kbind_inv in R as [[] [f3 [s3 [R3 R]]]].
  assert (Gc := all_keep rt). destruct Gc as [Gc [_ [Gt [_ [_ [Gr _]]]]]]. specialize (Gc c VNone (a :: fs) (at_ b 0 o) (wf_at b o)). rewrite Rv in Gc. destruct Gc as [W1 [K1 _]].
  apply kept_cons in K1 as [a1 [fs1 [-> [P1 _]]]].
  assert (exists w f2 s2, (if d then run_rep rt (run_ty rt (attr_path path i) en t) r (a1 :: fs1) sv = (Ok (w, f2), s2) else w = None /\ f2 = a1 :: fs1 /\ s2 = sv) /\ (exists a2 fs2, f2 = a2 :: fs2 /\ public a2 = public a) /\ wf s2 /\ f3 = (hd [] f2 ++ put_one x w) :: tl f2 /\ s3 = s2) as [w [f2 [s2 [Rw [[a2 [fs2 [-> P2]]] [W2 [-> ->]]]]]]].
  { destruct d.
    - apply kbind_inv in R3 as [w [f2 [s2 [Rw R3]]]]. exists w, f2, s2. split; [exact Rw|].
      specialize (Gr r _ en t (fun fs s W => Gt t (attr_path path i) en fs s W) (a1 :: fs1) sv W1). rewrite Rw in Gr. destruct Gr as [W2 [K2 _]]. apply kept_cons in K2 as [a2 [fs2 [-> [P2 _]]]].
      split; [exists a2, fs2; split; congruence|]. split; [exact W2|]. destruct w as [w|]; cbn [put_one hd tl].
      + apply put_inv in R3 as [-> ->]. now split.
      + apply kret_inv in R3 as [_ [-> ->]]. rewrite app_nil_r. now split.
    - apply kret_inv in R3 as [_ [-> ->]]. exists None, (a1 :: fs1), sv. cbn [put_one hd tl]. rewrite app_nil_r. split; [split; [reflexivity|now split]|]. split; [exists a1, fs1; now split|]. split; [exact W1|]. now split. }
  pose proof (seq_typed rt q path (S i) (is_bits t) (a2 ++ put_one x w) fs2 s2 W2) as T. cbn [hd tl] in *. unfold frames, attrs in *. rewrite R in T.
  destruct T as [_ [h' [g' [new [E [_ [Pn Hq]]]]]]]. assert (h' = h) as -> by congruence.
  exists d, (a1 :: fs1), sv, (a2 :: fs2), s2, w, new. split; [|split; [exact Rw|split; [exact R|split; [reflexivity|split; [|split; [now apply Hq|exact P2]]]]]].
  - unfold kbind, bind. rewrite Rv. reflexivity.
  - rewrite Pn, public_app, P2, <- app_assoc. f_equal. f_equal. destruct w; [|reflexivity]. unfold put_one, public. cbn [filter fst]. now rewrite Hx.
Qed.
Lemma one_value (p : attrs) x w1 w2 n1 n2 q : ~ In x (names q) -> has_attributes q n1 -> has_attributes q n2 -> p ++ put_one x w1 ++ n1 = p ++ put_one x w2 ++ n2 -> w1 = w2.
Proof.
  intros N H1 H2 E. apply app_inv_head in E. destruct w1 as [v1|], w2 as [v2|]; cbn [put_one app] in E.
  - congruence.
  - subst n2. exfalso. apply N. eapply attributes_named; [exact H2|now left].
  - subst n1. exfalso. apply N. eapply attributes_named; [exact H1|now left].
  - reflexivity.
Qed.
Definition Pr r := match r with Once => True | Eos => True | Times e => mild e = true | Until e => mild e = true end ->
  forall one, grows one -> whole one one -> whole (run_rep rt one r) (run_rep rt one r).
Lemma rep_case r : Pr r.
Proof.
  intros K one G H. destruct r as [| |e|e].
  - exact H.
  - cbn [run_rep]. apply whole_some, whole_turns. intros. apply whole_eof; [now apply whole_present|wk].
  - change (whole (n <~ eval rt e VNone;; n <~ need_int n;; l <~ times (v <~ one;; present v) (Z.to_nat n);; kret (Some (VList l))) (n <~ eval rt e VNone;; n <~ need_int n;; l <~ times (v <~ one;; present v) (Z.to_nat n);; kret (Some (VList l)))).
    intros o fs Ha. assert (Gt : forall n, grows (times (v <~ one;; present v) n)) by (intros; apply w_times; wk).
    eapply R_bind; [now apply mild_eval|intros; wk|intros; wk|]. cbv beta. intros a1 a2 f o' _ ->.
    eapply R_bind; [apply R_quiet2; apply q_int|intros; wk|intros; wk|]. cbv beta. intros n1 n2 g o'' _ ->.
    intros v1 f1 s1 v2 f2 s2 Hh R1 R2 J Hv. apply kbind_inv in R1 as [l1 [g1 [t1 [R1 Q1]]]]. apply kbind_inv in R2 as [l2 [g2 [t2 [R2 Q2]]]].
    apply kret_inv in Q1 as [-> [-> ->]]. apply kret_inv in Q2 as [-> [-> ->]]. assert (l1 = l2) as <- by congruence.
    eapply (whole_times (v <~ one;; present v)); [now apply whole_present|wk|exact Ha|exact Hh|exact R1|exact R2|exact J|reflexivity].
  - change (whole (l <~ turns (until (v <~ one;; present v) (fun v => w <~ eval rt e v;; need_bool w));; kret (Some (VList l))) (l <~ turns (until (v <~ one;; present v) (fun v => w <~ eval rt e v;; need_bool w));; kret (Some (VList l)))).
    apply whole_some, whole_turns. intros. apply whole_until; [now apply whole_present|wk|intros; wk; apply we|]. intros. now apply mild_bool.
Qed.
Lemma left_out t loc en fs s v f s' : ty_names t = true -> wf s -> can_be_left_out t = false -> run_ty rt loc en t fs s = (Ok (v, f), s') -> v <> None.
Proof. intros N W L R. pose proof (ty_typed rt t loc en fs s W) as T. rewrite R in T. destruct T as [_ [_ T]]. specialize (T N). intros ->. congruence. Qed.
Lemma rep_some r one fs s v f s' : r <> Once -> run_rep rt one r fs s = (Ok (v, f), s') -> v <> None.
Proof.
  intros N R. destruct r as [| |e|e]; [congruence| | |].
  - cbn [run_rep] in R. apply kbind_inv in R as [l [g [t [_ R]]]]. apply kret_inv in R as [-> _]. discriminate.
  - change ((n <~ eval rt e VNone;; n <~ need_int n;; l <~ times (v <~ one;; present v) (Z.to_nat n);; kret (Some (VList l))) fs s = (Ok (v, f), s')) in R.
    apply kbind_inv in R as [? [? [? [_ R]]]]. apply kbind_inv in R as [? [? [? [_ R]]]]. apply kbind_inv in R as [l [g [t [_ R]]]]. apply kret_inv in R as [-> _]. discriminate.
  - change ((l <~ turns (until (v <~ one;; present v) (fun v => w <~ eval rt e v;; need_bool w));; kret (Some (VList l))) fs s = (Ok (v, f), s')) in R.
    apply kbind_inv in R as [l [g [t [_ R]]]]. apply kret_inv in R as [-> _]. discriminate.
Qed.

Lemma attr_case x c r en t q : Pty t -> Pq q -> Pq (Attr x c r en t q).
Proof.
  intros IHt IHq l l' K path i after o a fs h1 g1 s1 h2 g2 s2 Hl Hh R1 R2 J Eh. subst h2. cbn [seq_keeps] in K.
  destruct (is_cache x) eqn:Hx; [discriminate|]. destruct (existsb (String.eqb x) (names q)) eqn:Hn; [discriminate|]. cbn [negb andb] in K.
  assert (N : ~ In x (names q)). { intros Hi. apply not_true_iff_false in Hn. apply Hn, existsb_exists. exists x. split; [exact Hi|apply String.eqb_refl]. }
  destruct (width t) as [n|] eqn:W.
  - (* bits *)
    destruct r; try discriminate. destruct (no_inst c) eqn:Hc; [|discriminate]. pose proof (keeps_names _ _ _ K) as Sn. destruct (width_bits _ _ W) as [Hb Hp].
    apply attr_inv in R1 as [d1 [f1 [t1 [f1' [t1' [w1 [n1 [C1 [V1 [R1 [F1 [P1 [A1 _]]]]]]]]]]]]]; [|exact Hx|exact Sn|congruence].
    apply attr_inv in R2 as [d2 [f2 [t2 [f2' [t2' [w2 [n2 [C2 [V2 [R2 [F2 [P2 [A2 _]]]]]]]]]]]]]; [|exact Hx|exact Sn|congruence].
    assert (w1 = w2) as <- by (eapply one_value with (p := public a); [exact N|exact A1|exact A2|congruence]).
    assert (Hq : quiet (v <~ eval rt c VNone;; need_bool v)) by (apply q_bind; [now apply quiet_eval|intros; apply q_bool]).
    destruct Hh as [B1 Hh']. assert (Hh : here o) by (split; assumption). apply Hq in C1 as X1; [|lia]. destruct X1 as [-> ->]. apply Hq in C2 as X2; [|lia]. destruct X2 as [-> ->].
    assert (Ht : c = ETrue -> d1 = true /\ d2 = true).
    { intros ->. cbn [eval] in C1, C2. apply kbind_inv in C1 as [? [? [? [C1 D1]]]]. apply kret_inv in C1 as [-> [-> ->]]. apply need_bool_inv in D1 as [D1 _].
      apply kbind_inv in C2 as [? [? [? [C2 D2]]]]. apply kret_inv in C2 as [-> [-> ->]]. apply need_bool_inv in D2 as [D2 _]. split; congruence. }
    cbn [run_rep] in V1, V2. destruct d1, d2.
    + destruct (bit_ty _ _ _ _ _ _ W _ _ _ _ _ Hh V1 V2) as [-> [-> [-> [-> Hh2]]]].
      assert (Hs : arrives (step l c n) (o + n)).
      { destruct l as [k|]; [|exact I]. cbn [arrives] in Hl. unfold step. assert (Z1 : (o + n) mod 8 = (k + n) mod 8) by (subst k; rewrite Zplus_mod_idemp_l; reflexivity).
        destruct c; try (destruct (Z.eqb_spec (n mod 8) 0) as [Z2|]; [|exact I]; cbn [arrives]; subst k; lia). exact Z1. }
      exact (IHq _ _ K _ _ _ _ _ _ _ _ _ _ _ _ Hs Hh2 R1 R2 J eq_refl).
    + destruct V2 as [-> _]. apply (bit_some _ _ _ _ _ _ _ _ _ W) in V1 as [? ?]. discriminate.
    + destruct V1 as [-> _]. apply (bit_some _ _ _ _ _ _ _ _ _ W) in V2 as [? ?]. discriminate.
    + destruct V1 as [_ [-> ->]]. destruct V2 as [_ [-> ->]].
      assert (Hs : arrives (step l c n) o).
      { destruct l as [k|]; [|exact I]. cbn [arrives] in Hl. unfold step. destruct c; try (destruct (Z.eqb_spec (n mod 8) 0) as [Z2|]; [exact Hl|exact I]). destruct (Ht eq_refl). discriminate. }
      exact (IHq _ _ K _ _ _ _ _ _ _ _ _ _ _ _ Hs Hh R1 R2 J eq_refl).
  - (* bytes *)
    match type of K with (if ?c then _ else _) = _ => destruct c eqn:E; [|discriminate] end. bools. pose proof (keeps_names _ _ _ K) as Sn.
    assert (Ho : o mod 8 = 0) by (destruct l as [[]|]; try discriminate; assumption).
    apply attr_inv in R1 as [d1 [f1 [t1 [f1' [t1' [w1 [n1 [C1 [V1 [R1 [F1 [P1 [A1 _]]]]]]]]]]]]]; [|exact Hx|exact Sn|auto].
    apply attr_inv in R2 as [d2 [f2 [t2 [f2' [t2' [w2 [n2 [C2 [V2 [R2 [F2 [P2 [A2 _]]]]]]]]]]]]]; [|exact Hx|exact Sn|auto].
    assert (w1 = w2) as <- by (eapply one_value with (p := public a); [exact N|exact A1|exact A2|congruence]).
    (* frames only grow *)
    assert (J3 : joinable ((hd [] f1' ++ put_one x w1) :: tl f1') ((hd [] f2' ++ put_one x w1) :: tl f2')).
    { destruct J as [F [J1 J2]]. eapply join_back with (g1 := h1 :: g1) (g2 := h1 :: g2); [|eapply wq; exact R1|eapply wq; exact R2]. exists (h1 :: F). split; apply cons_ext; try apply prefix_refl; assumption. }
    assert (J2 : joinable f1' f2').
    { rewrite F1, F2. eapply join_back; [exact J3| |]; apply cons_ext; try apply ext_refl; now eexists. }
    assert (G : forall d f w f' s s', (if (d : bool) then run_rep rt (run_ty rt (attr_path path i) en t) r f s = (Ok (w, f'), s') else w = None /\ f' = f /\ s' = s) -> ext f f').
    { intros d f w f' s s' V. destruct d; [eapply wr; [|exact V]; apply wty|destruct V as [_ [-> _]]; apply ext_refl]. }
    assert (J1 : joinable f1 f2) by (eapply join_back; [exact J2|exact (G _ _ _ _ _ _ V1)|exact (G _ _ _ _ _ _ V2)]).
    (* the condition *)
    assert (Hmild : mild c = true) by assumption.
    destruct (mild_bool c Hmild VNone (a :: fs) o Ho _ _ _ _ _ _ Hh C1 C2 J1 I) as [<- [o1 [-> [-> [_ ->]]]]].
    assert (Hd : steady c = true -> d1 = d2).
    { intros Hs. assert (SB : steadyR (v <~ eval rt c VNone;; need_bool v) o (a :: fs)) by (apply S_bind; [now apply steady_eval|intros; wk|intros; apply S_bool]).
      destruct (SB _ _ _ _ _ _ Hh C1 C2 J1 I) as [_ [o2 [_ [_ [_ [_ X]]]]]]. exact X. }
    assert (Ho' : steady c = false -> forall f s w f' s', wf s -> run_rep rt (run_ty rt (attr_path path i) en t) r f s = (Ok (w, f'), s') -> w <> None).
    { intros Hs f s w f' s' Wf V. match goal with H : steady c || _ = true |- _ => rewrite Hs in H; cbn [orb] in H; rename H into Hr end.
      destruct r; try (eapply rep_some; [|exact V]; discriminate). apply negb_true_iff in Hr. eapply left_out; [|exact Wf|exact Hr|exact V]. assumption. }
    assert (d1 = d2) as <-.
    { destruct (steady c) eqn:Hs; [now apply Hd|]. specialize (Ho' eq_refl). destruct d1, d2; try reflexivity.
      - destruct V2 as [-> _]. apply Ho' in V1; [congruence|apply wf_at].
      - destruct V1 as [-> _]. apply Ho' in V2; [congruence|apply wf_at]. }
    assert (f1' = f2' /\ exists o', t1' = at_ b1 0 o' /\ t2' = at_ b2 0 o' /\ here o' /\ o' mod 8 = 0) as [<- [o' [-> [-> [Hh2 Ho2]]]]].
    { destruct d1.
      - eapply (rep_case r); [destruct r; auto|apply wty|apply IHt; assumption|exact Ho|exact Hh|exact V1|exact V2|exact J2|reflexivity].
      - destruct V1 as [_ [-> ->]]. destruct V2 as [_ [-> ->]]. split; [reflexivity|]. exists o. auto. }
    exact (IHq _ _ K _ _ _ _ _ _ _ _ _ _ _ _ Ho2 Hh2 R1 R2 J eq_refl).
Qed.

Lemma all_same : (forall e : expr, True) /\ (forall i : inst, True) /\ (forall t, Pty t) /\ (forall cs, Pcs cs) /\ (forall k : key, True) /\ (forall r : rep, True) /\ (forall q, Pq q) /\ (forall t, Pt t).
Proof.
  apply (ksy_mind (fun _ => True) (fun _ => True) Pty Pcs (fun _ => True) (fun _ => True) Pq Pt); try (intros; exact I).
  - intros n K. discriminate.
  - intros K. discriminate.
  - intros f K loc en. cbn [run_ty]. apply whole_leaf, leaf_enum, leaf_number.
  - intros e _ K loc en. apply (sized_leaf e (vbytes rt)); [exact K|]. intros. apply leaf_vbytes.
  - intros K loc en. cbn [run_ty]. apply whole_leaf, leaf_vfull.
  - intros c e _ K loc en. apply (sized_leaf e (vstr rt c)); [exact K|]. intros. apply leaf_vstr.
  - intros c K loc en. cbn [run_ty]. apply whole_leaf, leaf_vstr_full.
  - intros x K loc en. cbn [run_ty]. apply whole_leaf, leaf_expect.
  - intros t IH z. now apply valid_case.
  - intros t IH. now apply imported_case.
  - intros t IH. now apply local_case.
  - intros e _ t _ K. discriminate.
  - intros e _ cs IH. now apply switch_case.
  - intros K loc en k1 k2 _. apply whole_ret.
  - intros t IH K loc en k1 k2 _. exact (IH K loc en).
  - intros k _ t IHt cs IHc. now apply more_case.
  - intros l l' K path i after o a fs h1 g1 s1 h2 g2 s2 Hl Hh R1 R2 J E. cbn [seq_keeps] in K. assert (l = l') as <- by congruence. cbn [run_attrs] in R1, R2.
    apply kret_inv in R1 as [_ [F1 ->]]. apply kret_inv in R2 as [_ [F2 ->]]. split; [congruence|]. exists o. auto.
  - intros x c _ r _ en t IHt q IHq. now apply attr_case.
  - intros path q IH. now apply typ_case.
Qed.

(** ** The result: what was read is the same *)
Lemma same_read t v s1 s2 : keeps t = true -> deep_typ t = true -> ksy_read rt t (stream_of b1) = (Ok v, s1) -> ksy_read rt t (stream_of b2) = (Ok v, s2) ->
  exists o, s1 = at_ b1 0 o /\ s2 = at_ b2 0 o /\ here o /\ (typ_keeps t = true -> o mod 8 = 0).
Proof.
  intros K D R1 R2. rewrite at_init in R1, R2. unfold ksy_read in R1, R2. apply bind_inv in R1 as [[w1 g1] [t1 [R1 Q1]]]. apply bind_inv in R2 as [[w2 g2] [t2 [R2 Q2]]].
  unfold ret in Q1, Q2. cbn [fst] in Q1, Q2. assert (w1 = v) as -> by congruence. assert (w2 = v) as -> by congruence. assert (t1 = s1) as -> by congruence. assert (t2 = s2) as -> by congruence.
  pose proof (lt rt t D _ _ _ _ _ R1) as L1. pose proof (lt rt t D _ _ _ _ _ R2) as L2. destruct g1; [|discriminate]. destruct g2; [|discriminate]. clear L1 L2 Q1 Q2.
  destruct t as [path q]. apply typ_inv in R1 as [h1 [E1 R1]]. apply typ_inv in R2 as [h2 [E2 R2]]. assert (h1 = h2) as E by congruence.
  cbn [keeps] in K. destruct (seq_keeps q (Some 0)) as [l'|] eqn:Q; [|discriminate].
  destruct all_same as [_ [_ [_ [_ [_ [_ [Hq _]]]]]]].
  assert (H0 : here 0) by (split; [unfold blen; lia|split; [unfold blen; lia|intros i Hi; lia]]).
  destruct (Hq q _ _ Q path 0%nat false 0 [] [] _ _ _ _ _ _ eq_refl H0 R1 R2 (join_refl []) E) as [_ [o [X1 [X2 [Hh Hl]]]]]. exists o. split; [exact X1|]. split; [exact X2|]. split; [exact Hh|].
  cbn [typ_keeps]. rewrite Q. destruct l' as [[]|]; try discriminate. intros _. exact Hl.
Qed.
End Two.
