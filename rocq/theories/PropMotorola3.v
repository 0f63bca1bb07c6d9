(** Property C45 (see properties.jsonl): Motorola variable length floats. *)
From Verif Require Import PyBase PyFloat MotorolaModel MotorolaSpec MotorolaFloat PropMotorola2.
From Coq Require Import QArith Qabs ZifyBool.
Ltac Zify.zify_post_hook ::= Z.div_mod_to_equations.
Open Scope list_scope.
Open Scope Z_scope.

(** Python's roundings are correct: the quotient of two ints, and an int as float, is the float nearest to
    the exact value. *)
Theorem C45_correct_rounding : forall n d, in_range n (Zpos d) -> exists f q, true_divide n (Zpos d) = Ok f /\ value f = Some q /\
  forall x, is_float x -> (Qabs (q - (n # d)) <= Qabs (x - (n # d)))%Q.
Proof.
  intros n d Hr. destruct (rnd_nearest n d Hr) as [q [E N]]. unfold true_divide. destruct (rnd n (Zpos d)) as [s m e|s]; [|discriminate]. exists (Fin s m e), q. auto.
Qed.
Print Assumptions C45_correct_rounding.

#[local] Opaque Z.pow.
(** the exact value of integer part [i] and fraction [q] *)
Definition exact (i : Z) (q : list Z) : Q := (inject_Z i + (base128 q # Z.to_pos (128 ^ Z.of_nat (List.length q))))%Q.
Lemma pow128 k : 0 <= k -> 128 ^ k = 2 ^ (7 * k).
Proof. intros. rewrite Z.pow_mul_r by lia. reflexivity. Qed.
Lemma sum_exact i q : 0 <= i -> i * 128 ^ Z.of_nat (List.length q) + base128 q < 2 ^ 53 -> 7 * Z.of_nat (List.length q) <= 1074 ->
  exists f fr g s m e, true_divide (base128 q) (128 ^ Z.of_nat (List.length q)) = Ok fr /\ float_of_int i = Ok f /\ float_add f fr = g /\ g = Fin s m e /\
    signed s m * 2 ^ (e + 1074) * 128 ^ Z.of_nat (List.length q) = (i * 128 ^ Z.of_nat (List.length q) + base128 q) * 2 ^ 1074.
Proof.
  intros Hi Hs Hk. pose proof (proj2 (C43_uintvar_value q)) as [Hq _]. set (k := Z.of_nat (List.length q)) in *. assert (K0 : 0 <= k) by lia.
  assert (P : 0 < 128 ^ k) by (apply Z.pow_pos_nonneg; lia). set (F := base128 q) in *.
  assert (HF : F < 2 ^ 53) by nia. assert (HI : i < 2 ^ 53) by nia.
  assert (E1 : F * 2 ^ (- (7 * k) + 1074) * 128 ^ k = F * 2 ^ 1074). { rewrite pow128, <- Z.mul_assoc, <- Z.pow_add_r by lia. do 2 f_equal. lia. }
  destruct (rnd_exact F (128 ^ k) F (- (7 * k)) P ltac:(lia) ltac:(lia) E1) as [s1 [m1 [e1 [R1 [H1 V1]]]]].
  assert (E2 : i * 2 ^ (0 + 1074) * 1 = i * 2 ^ 1074) by (change (0 + 1074) with 1074; ring).
  destruct (rnd_exact i 1 i 0 ltac:(lia) ltac:(lia) ltac:(lia) E2) as [s2 [m2 [e2 [R2 [H2 V2]]]]].
  set (N := i * 128 ^ k + F) in *.
  assert (E3 : signed s2 m2 * 2 ^ (e2 + 1074) + signed s1 m1 * 2 ^ (e1 + 1074) = N * 2 ^ (- (7 * k) + 1074)).
  { apply (Z.mul_reg_r _ _ (128 ^ k)); [lia|]. rewrite Z.mul_add_distr_r, V1. replace (signed s2 m2 * 2 ^ (e2 + 1074)) with (i * 2 ^ 1074) by lia.
    replace (N * 2 ^ (- (7 * k) + 1074) * 128 ^ k) with (N * 2 ^ 1074); [unfold N; ring|]. rewrite pow128, <- Z.mul_assoc, <- Z.pow_add_r by lia. do 2 f_equal. lia. }
  destruct (float_add_exact s2 m2 e2 s1 m1 e1 N (- (7 * k)) H2 H1 ltac:(lia) ltac:(nia) E3) as [s [m [e [R3 [H3 V3]]]]].
  exists (Fin s2 m2 e2), (Fin s1 m1 e1), (Fin s m e), s, m, e. unfold true_divide, float_of_int. rewrite R1, R2. split; [reflexivity|]. split; [reflexivity|]. split; [exact R3|]. split; [reflexivity|].
  rewrite V3, pow128, <- Z.mul_assoc, <- Z.pow_add_r by lia. do 2 f_equal. lia.
Qed.
Lemma exact_value s m e i q : signed s m * 2 ^ (e + 1074) * 128 ^ Z.of_nat (List.length q) = (i * 128 ^ Z.of_nat (List.length q) + base128 q) * 2 ^ 1074 ->
  exists v, value (Fin s m e) = Some v /\ (v == exact i q)%Q.
Proof.
  intros H. rewrite value_fin. eexists. split; [reflexivity|]. unfold exact, inject_Z, Qplus, Qeq. cbn [Qnum Qden].
  assert (P : 0 < 128 ^ Z.of_nat (List.length q)) by (apply Z.pow_pos_nonneg; lia). rewrite Pos.mul_1_l, to_pos_pow, Z2Pos.id by assumption. rewrite H. ring.
Qed.
(** Integer part and fraction together within 53 bits: the result is exact. *)
Theorem C45_ufloat_exact : forall p q,
  base128 (p ++ q) < 2 ^ 53 -> 7 * Z.of_nat (List.length q) <= 1074 ->
  exists f v, ufloatvar_to_float p q = Ok f /\ value f = Some v /\ (v == exact (base128 p) q)%Q.
Proof.
  intros p q Hs Hk. pose proof (proj2 (C43_uintvar_value p)) as [Hp _].
  assert (A : base128 (p ++ q) = base128 p * 128 ^ Z.of_nat (List.length q) + base128 q).
  { clear. induction q as [|x q IH] using rev_ind; [rewrite app_nil_r; change (128 ^ Z.of_nat (List.length [])) with 1; change (base128 []) with 0; lia|].
    rewrite app_assoc, !base128_app, IH, app_length, Nat2Z.inj_add. change (Z.of_nat (List.length [x])) with 1. rewrite Z.pow_add_r by lia. change (128 ^ 1) with 128. ring. }
  rewrite A in Hs. destruct (sum_exact _ _ Hp Hs Hk) as [f [fr [g [s [m [e [E1 [E2 [E3 [-> V]]]]]]]]]]. unfold ufloatvar_to_float.
  rewrite !(proj1 (C43_uintvar_value _)), E1, E2. cbn [rbind]. rewrite E3. apply exact_value in V as [v [V1 V2]]. exists (Fin s m e), v. auto.
Qed.
Print Assumptions C45_ufloat_exact.
Lemma neg_value f v : value f = Some v -> exists v', value (float_neg f) = Some v' /\ (v' == - v)%Q.
Proof.
  destruct f as [s m e|]; [|discriminate]. cbn [float_neg]. rewrite !value_fin. intros [= <-]. eexists. split; [reflexivity|]. unfold Qeq, Qopp. cbn [Qnum Qden]. destruct s; cbn [negb signed]; ring.
Qed.
(** The signed version.  [w] is the weight of the sign bit.  With a set sign bit the integer part is the number
    without it and the result is negative; otherwise the highest set bit of the integer part is lost. *)
Theorem C45_sfloat_exact : forall x p q, 0 <= x < 256 ->
  let u := base128 (x :: p) in
  let w := 64 * 128 ^ Z.of_nat (List.length p) in
  let negative := 64 <=? x mod 128 in
  let magnitude := if negative then u - w else if u =? 0 then 0 else u - 2 ^ Z.log2 u in
  magnitude * 128 ^ Z.of_nat (List.length q) + base128 q < 2 ^ 53 -> 7 * Z.of_nat (List.length q) <= 1074 ->
  exists f v, sfloatvar_to_float (x :: p) q = Ok f /\ value f = Some v /\ (v == if negative then - exact magnitude q else exact magnitude q)%Q.
Proof.
  intros x p q Hx u w negative magnitude Hs Hk. pose proof (C44_sintvar_value x p Hx) as S. cbv zeta in S. fold u w negative in S.
  assert (C : clear_msb (uintvar_to_int (x :: p)) = magnitude /\ (0 <? Z.land (hd 0 (x :: p)) 0x40) = negative).
  { unfold sintvar_to_int in S. cbv zeta in S. cbn [hd] in S |- *. rewrite land_64 in S |- * by assumption. fold negative in S |- *. split; [|reflexivity]. unfold magnitude. destruct negative; [lia|exact S]. }
  destruct C as [C1 C2]. assert (Hm : 0 <= magnitude).
  { rewrite <- C1. rewrite (proj1 (C43_uintvar_value _)). assert (H0 : 0 <= base128 (x :: p)) by apply (C43_uintvar_value (x :: p)). rewrite clear_msb_value by assumption. destruct (Z.eqb_spec (base128 (x :: p)) 0); [lia|].
    pose proof (Z.log2_spec (base128 (x :: p)) ltac:(lia)). lia. }
  destruct (sum_exact _ _ Hm Hs Hk) as [f [fr [g [s [m [e [E1 [E2 [E3 [-> V]]]]]]]]]]. unfold sfloatvar_to_float. rewrite C1, C2, (proj1 (C43_uintvar_value q)), E1, E2. cbn [rbind]. rewrite E3.
  apply exact_value in V as [v [V1 V2]]. destruct negative.
  - destruct (neg_value _ _ V1) as [v' [W1 W2]]. exists (float_neg (Fin s m e)), v'. split; [reflexivity|]. split; [exact W1|]. rewrite W2, V2. reflexivity.
  - exists (Fin s m e), v. auto.
Qed.
Print Assumptions C45_sfloat_exact.
(** Encoded as sign and magnitude ([encode_sintvar]), negative numbers come out right ... *)
Theorem C45_negative_sfloat : forall k m q, 0 <= m < 64 * 128 ^ Z.of_nat k -> m * 128 ^ Z.of_nat (List.length q) + base128 q < 2 ^ 53 -> 7 * Z.of_nat (List.length q) <= 1074 ->
  exists f v, sfloatvar_to_float (encode_sintvar k true m) q = Ok f /\ value f = Some v /\ (v == - exact m q)%Q.
Proof.
  intros k m q Hm Hs Hk. destruct (encode_sintvar_shape k true m Hm) as [x [l [E [Hx [Hl [V S]]]]]]. rewrite E. pose proof (C45_sfloat_exact x l q Hx) as T. cbv zeta in T. rewrite S, V, Hl in T.
  replace (m + 64 * 128 ^ Z.of_nat k - 64 * 128 ^ Z.of_nat k) with m in T by lia. exact (T Hs Hk).
Qed.
Print Assumptions C45_negative_sfloat.
(** ... and positive ones (with an integer part) wrong. *)
Theorem C45_positive_sfloat_refuted : forall k m q, 0 < m < 64 * 128 ^ Z.of_nat k -> m * 128 ^ Z.of_nat (List.length q) + base128 q < 2 ^ 53 -> 7 * Z.of_nat (List.length q) <= 1074 ->
  exists f v, sfloatvar_to_float (encode_sintvar k false m) q = Ok f /\ value f = Some v /\ ~ (v == exact m q)%Q.
Proof.
  intros k m q Hm Hs Hk. destruct (encode_sintvar_shape k false m ltac:(lia)) as [x [l [E [Hx [Hl [V S]]]]]]. rewrite E. pose proof (C45_sfloat_exact x l q Hx) as T. cbv zeta in T. rewrite S, V, Z.add_0_r in T.
  destruct (Z.eqb_spec m 0); [lia|]. assert (P : 0 < 2 ^ Z.log2 m) by (apply Z.pow_pos_nonneg; [lia|apply Z.log2_nonneg]). assert (P' : 0 < 128 ^ Z.of_nat (List.length q)) by (apply Z.pow_pos_nonneg; lia).
  destruct (T ltac:(nia) Hk) as [f [v [T1 [T2 T3]]]]. exists f, v. split; [exact T1|]. split; [exact T2|]. rewrite T3. unfold exact. intros C. apply Qplus_inj_r in C. unfold Qeq, inject_Z in C. cbn [Qnum Qden] in C. lia.
Qed.
Print Assumptions C45_positive_sfloat_refuted.
#[local] Transparent Z.pow.
Example C45_case : base128 [0x81; 0x20; 0x87; 0x57] < 2 ^ 53 /\ exists f v, ufloatvar_to_float [0x81; 0x20] [0x87; 0x57] = Ok f /\ value f = Some v /\ (v == 160 + (983 # 16384))%Q.
Proof. split; [vm_compute; reflexivity|]. do 2 eexists. split; [vm_compute; reflexivity|]. split; [vm_compute; reflexivity|]. vm_compute. reflexivity. Qed.
Example C45_case_signed : exists f v, sfloatvar_to_float [0x65] [0x40] = Ok f /\ value f = Some v /\ (v == - (75 # 2))%Q.
Proof. do 2 eexists. split; [vm_compute; reflexivity|]. split; [vm_compute; reflexivity|]. vm_compute. reflexivity. Qed.
Example C45_case_positive : exists f v, sfloatvar_to_float [0x25] [0x40] = Ok f /\ value f = Some v /\ (v == 11 # 2)%Q.
Proof. do 2 eexists. split; [vm_compute; reflexivity|]. split; [vm_compute; reflexivity|]. vm_compute. reflexivity. Qed.
