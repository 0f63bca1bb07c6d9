(** Python floats: IEEE 754 binary64, round to nearest, ties to even.
    A finite float is (-1)^neg * m * 2^e with 0 <= m <= 2^53 and e >= -1074 (m = 2^53 stands for the
    next power of two).  NaN does not occur in the modelled code. *)
From Verif Require Import PyBase.
From Coq Require Import QArith Qabs ZifyBool.
Ltac Zify.zify_post_hook ::= Z.div_mod_to_equations.
Open Scope Z_scope.

Inductive pyfloat := Fin (neg : bool) (m e : Z) | Inf (neg : bool).

(** a / d, scaled by 2^-e *)
Definition fl_num (a e : Z) : Z := a * 2 ^ Z.max 0 (- e).
Definition fl_den (d e : Z) : Z := d * 2 ^ Z.max 0 e.
(** the exponent for which the scaled quotient has 53 bits, but not below the one of the subnormals *)
Definition fl_exp (a d : Z) : Z :=
  let e0 := Z.log2 a - Z.log2 d - 53 in
  Z.max (-1074) (if 2 ^ 53 * fl_den d e0 <=? fl_num a e0 then e0 + 1 else e0).
(** division rounding to the nearest integer, ties to the even one *)
Definition div_even (n d : Z) : Z :=
  let q := n / d in let r := n mod d in
  if 2 * r <? d then q else if d <? 2 * r then q + 1 else if Z.even q then q else q + 1.
(** the float nearest to n / d, for d > 0 *)
Definition rnd (n d : Z) : pyfloat :=
  if n =? 0 then Fin false 0 0 else
  let a := Z.abs n in
  let e := fl_exp a d in
  let m := div_even (fl_num a e) (fl_den d e) in
  if (0 <=? e) && (2 ^ 1024 <=? m * 2 ^ e) then Inf (n <? 0) else Fin (n <? 0) m e.

(** CPython's int / int (PyLong true division): correctly rounded; too large results are an OverflowError.
    Only positive divisors are modelled. *)
Definition true_divide (a b : Z) : res pyfloat :=
  match rnd a b with Inf _ => Err OverflowError | f => Ok f end.
(** CPython's conversion of an int operand to float: correctly rounded, OverflowError if too large *)
Definition float_of_int (n : Z) : res pyfloat :=
  match rnd n 1 with Inf _ => Err OverflowError | f => Ok f end.
Definition signed (neg : bool) (m : Z) : Z := if neg then - m else m.
(** float + float; an infinite operand is passed on (infinities do not occur as operands in the modelled code) *)
Definition float_add (x y : pyfloat) : pyfloat :=
  match x, y with
  | Fin sx mx ex, Fin sy my ey =>
      let e := Z.min ex ey in
      let s := signed sx mx * 2 ^ (ex - e) + signed sy my * 2 ^ (ey - e) in
      rnd (s * 2 ^ Z.max 0 e) (2 ^ Z.max 0 (- e))
  | Inf _, _ => x
  | _, Inf _ => y
  end.
Definition float_neg (x : pyfloat) : pyfloat := match x with Fin s m e => Fin (negb s) m e | Inf s => Inf (negb s) end.

(** The rational number a float stands for: a multiple of 2^-1074. *)
Definition value (f : pyfloat) : option Q :=
  match f with
  | Fin s m e => Some (signed s (m * 2 ^ (e + 1074)) # Z.to_pos (2 ^ 1074))%Q
  | Inf _ => None
  end.

(** * Correct rounding *)
Lemma div_even_half n d : 0 < d -> 0 <= n -> 2 * Z.abs (div_even n d * d - n) <= d.
Proof.
  intros Hd Hn. unfold div_even. cbv zeta. pose proof (Z.div_mod n d ltac:(lia)) as E. pose proof (Z.mod_pos_bound n d Hd) as R.
  set (q := n / d) in *. set (r := n mod d) in *. clearbody q r. 
  destruct (Z.ltb_spec (2 * r) d); [|destruct (Z.ltb_spec d (2 * r)); [|destruct (Z.even q)]]; nia.
Qed.
Lemma pow2_pos k : 0 <= k -> 0 < 2 ^ k.
Proof. intros. apply Z.pow_pos_nonneg; lia. Qed.
Lemma fl_step a d e : fl_num a (e + 1) * fl_den d e * 2 = fl_num a e * fl_den d (e + 1).
Proof.
  unfold fl_num, fl_den. destruct (Z_le_gt_dec 0 e).
  - replace (Z.max 0 (- (e + 1))) with 0 by lia. replace (Z.max 0 (- e)) with 0 by lia. replace (Z.max 0 (e + 1)) with (Z.succ e) by lia. replace (Z.max 0 e) with e by lia. rewrite Z.pow_succ_r by lia. ring.
  - replace (Z.max 0 (- e)) with (Z.succ (Z.max 0 (- (e + 1)))) by lia. replace (Z.max 0 (e + 1)) with 0 by lia. replace (Z.max 0 e) with 0 by lia. rewrite Z.pow_succ_r by lia. ring.
Qed.
Lemma fl_scale a d e : -1074 <= e -> fl_num a e * (d * 2 ^ (e + 1074)) = a * 2 ^ 1074 * fl_den d e.
Proof.
  intros He. unfold fl_num, fl_den. replace (a * 2 ^ Z.max 0 (- e) * (d * 2 ^ (e + 1074))) with (a * d * (2 ^ Z.max 0 (- e) * 2 ^ (e + 1074))) by ring.
  replace (a * 2 ^ 1074 * (d * 2 ^ Z.max 0 e)) with (a * d * (2 ^ 1074 * 2 ^ Z.max 0 e)) by ring. rewrite <- !Z.pow_add_r by lia. do 2 f_equal. lia.
Qed.
Lemma fl_den_pos d e : 0 < d -> 0 < fl_den d e.
Proof. intros. unfold fl_den. pose proof (pow2_pos (Z.max 0 e) ltac:(lia)). nia. Qed.
Lemma fl_num_nonneg a e : 0 <= a -> 0 <= fl_num a e.
Proof. intros. unfold fl_num. pose proof (pow2_pos (Z.max 0 (- e)) ltac:(lia)). nia. Qed.
(** the first guess *)
Lemma fl_guess a d : 0 < a -> 0 < d -> let e0 := Z.log2 a - Z.log2 d - 53 in 2 ^ 52 * fl_den d e0 < fl_num a e0 < 2 ^ 54 * fl_den d e0.
Proof.
  intros Ha Hd e0. destruct (Z.log2_spec a Ha) as [A1 A2]. destruct (Z.log2_spec d Hd) as [D1 D2]. pose proof (Z.log2_nonneg a) as La. pose proof (Z.log2_nonneg d) as Ld.
  set (la := Z.log2 a) in *. set (ld := Z.log2 d) in *.
  unfold fl_den, fl_num. set (p := Z.max 0 (- e0)) in *. set (q := Z.max 0 e0) in *.
  assert (Pp : 0 < 2 ^ p) by (apply pow2_pos; lia). assert (Pq : 0 < 2 ^ q) by (apply pow2_pos; lia).
  rewrite !Z.pow_succ_r in * by lia.
  assert (E : 2 ^ la * 2 ^ p = 2 ^ 53 * (2 ^ ld * 2 ^ q)). { rewrite <- !Z.pow_add_r by lia. f_equal. lia. }
  change (2 ^ 52) with 4503599627370496. change (2 ^ 54) with 18014398509481984. change (2 ^ 53) with 9007199254740992 in E.
  set (x := 2 ^ p) in *. set (y := 2 ^ q) in *. set (u := 2 ^ la) in *. set (w := 2 ^ ld) in *. clearbody x y u w. clear - A1 A2 D1 D2 Pp Pq E. nia.
Qed.
Lemma fl_exp_low a d : 0 < a -> 0 < d -> -1074 < fl_exp a d -> 2 ^ 52 * fl_den d (fl_exp a d) <= fl_num a (fl_exp a d).
Proof.
  intros Ha Hd. unfold fl_exp. cbv zeta. pose proof (fl_guess a d Ha Hd) as G. cbv zeta in G. set (e0 := Z.log2 a - Z.log2 d - 53) in *.
  destruct (Z.leb_spec (2 ^ 53 * fl_den d e0) (fl_num a e0)) as [L|L].
  - intros H. rewrite Z.max_r by lia. pose proof (fl_step a d e0) as S. pose proof (fl_den_pos d e0 Hd). pose proof (fl_den_pos d (e0 + 1) Hd). pose proof (fl_num_nonneg a (e0 + 1) ltac:(lia)).
    change (2 ^ 53) with (2 * 2 ^ 52) in L. set (k := 2 ^ 52) in *. clearbody k. nia.
  - intros H. rewrite Z.max_r by lia. lia.
Qed.
Lemma fl_mono a d e e' : 0 < a -> 0 < d -> e <= e' -> fl_num a e' * fl_den d e <= fl_num a e * fl_den d e'.
Proof.
  intros Ha Hd He. unfold fl_num, fl_den.
  replace (a * 2 ^ Z.max 0 (- e') * (d * 2 ^ Z.max 0 e)) with (a * d * 2 ^ (Z.max 0 (- e') + Z.max 0 e)) by (rewrite Z.pow_add_r by lia; ring).
  replace (a * 2 ^ Z.max 0 (- e) * (d * 2 ^ Z.max 0 e')) with (a * d * 2 ^ (Z.max 0 (- e) + Z.max 0 e')) by (rewrite Z.pow_add_r by lia; ring).
  apply Z.mul_le_mono_nonneg_l; [nia|]. apply Z.pow_le_mono_r; lia.
Qed.
Lemma fl_exp_high a d : 0 < a -> 0 < d -> fl_num a (fl_exp a d) < 2 ^ 53 * fl_den d (fl_exp a d).
Proof.
  intros Ha Hd. unfold fl_exp. cbv zeta. pose proof (fl_guess a d Ha Hd) as G. cbv zeta in G. set (e0 := Z.log2 a - Z.log2 d - 53) in *.
  set (e1 := if 2 ^ 53 * fl_den d e0 <=? fl_num a e0 then e0 + 1 else e0).
  assert (H1 : fl_num a e1 < 2 ^ 53 * fl_den d e1).
  { subst e1. destruct (Z.leb_spec (2 ^ 53 * fl_den d e0) (fl_num a e0)) as [L|L]; [|exact L]. pose proof (fl_step a d e0) as S. pose proof (fl_den_pos d e0 Hd). pose proof (fl_den_pos d (e0 + 1) Hd).
    pose proof (fl_num_nonneg a (e0 + 1) ltac:(lia)). change (2 ^ 54) with (2 * 2 ^ 53) in G. set (k := 2 ^ 53) in *. assert (0 < k) by reflexivity. clearbody k. nia. }
  pose proof (fl_mono a d e1 (Z.max (-1074) e1) Ha Hd ltac:(lia)) as M. pose proof (fl_den_pos d e1 Hd). pose proof (fl_den_pos d (Z.max (-1074) e1) Hd).
  set (k := 2 ^ 53) in *. clearbody k. nia.
Qed.
(** [rnd] gives the nearest of all floats of any size (in units of 2^-1074, for a positive quotient) *)
Lemma nearest_pos a d m e : 0 < a -> 0 < d -> e = fl_exp a d -> m = div_even (fl_num a e) (fl_den d e) ->
  -1074 <= e /\ 0 <= m <= 2 ^ 53 /\
  forall m' e', -1074 <= e' -> Z.abs m' < 2 ^ 53 -> Z.abs (m * 2 ^ (e + 1074) * d - a * 2 ^ 1074) <= Z.abs (m' * 2 ^ (e' + 1074) * d - a * 2 ^ 1074).
Proof.
  intros Ha Hd He Hm. assert (E1 : -1074 <= e) by (subst e; unfold fl_exp; cbv zeta; lia). pose proof (fl_den_pos d e Hd) as Pd. pose proof (fl_num_nonneg a e ltac:(lia)) as Pn.
  pose proof (div_even_half _ _ Pd Pn) as H. rewrite <- Hm in H. pose proof (fl_exp_high a d Ha Hd) as Hh. rewrite <- He in Hh. pose proof (fl_scale a d e E1) as S.
  set (D := d * 2 ^ (e + 1074)) in *. assert (PD : 0 < D) by (subst D; pose proof (pow2_pos (e + 1074) ltac:(lia)); nia). set (A := a * 2 ^ 1074) in *.
  set (n := fl_num a e) in *. set (dn := fl_den d e) in *.
  assert (HD : 2 * Z.abs (m * D - A) <= D).
  { assert (X : Z.abs (m * D - A) * dn = Z.abs (m * dn - n) * D).
    { rewrite <- (Z.abs_eq dn) at 1 by lia. rewrite <- (Z.abs_eq D) at 2 by lia. rewrite <- !Z.abs_mul. f_equal. nia. }
    nia. }
  assert (G : forall M, Z.abs (m * D - A) <= Z.abs (M * D - A)).
  { intros M. destruct (Z.eq_dec M m) as [->|N]; [lia|]. assert (D <= Z.abs (M * D - m * D)) by (rewrite <- Z.mul_sub_distr_r, Z.abs_mul, (Z.abs_eq D) by lia; nia). lia. }
  split; [exact E1|]. split.
  { split; [|]; [nia|]. set (k := 2 ^ 53) in *. assert (0 < k) by reflexivity. clearbody k. nia. }
  intros m' e' He' Hm'. replace (m * 2 ^ (e + 1074) * d) with (m * D) by (subst D; ring).
  destruct (Z_le_gt_dec e e') as [L|L].
  - replace (m' * 2 ^ (e' + 1074) * d) with (m' * 2 ^ (e' - e) * D); [apply G|]. subst D. replace (e' + 1074) with ((e' - e) + (e + 1074)) by lia. rewrite (Z.pow_add_r 2 (e' - e) (e + 1074)) by lia. ring.
  - pose proof (fl_exp_low a d Ha Hd) as Hl. rewrite <- He in Hl. specialize (Hl ltac:(lia)). fold n dn in Hl.
    assert (A52 : 2 ^ 52 * D <= A). { set (k := 2 ^ 52) in *. clearbody k. nia. }
    assert (Y : m' * 2 ^ (e' + 1074) * d <= 2 ^ 52 * D).
    { subst D. replace (e + 1074) with (Z.succ (e - 1 - e') + (e' + 1074)) by lia. rewrite (Z.pow_add_r 2 (Z.succ (e - 1 - e')) (e' + 1074)), Z.pow_succ_r by lia. pose proof (pow2_pos (e - 1 - e') ltac:(lia)) as P1. pose proof (pow2_pos (e' + 1074) ltac:(lia)) as P2.
      change (2 ^ 53) with (2 * 2 ^ 52) in Hm'. set (k := 2 ^ 52) in *. assert (0 < k) by reflexivity. clearbody k. set (x := 2 ^ (e - 1 - e')) in *. set (y := 2 ^ (e' + 1074)) in *. clearbody x y.
      pose proof (Z.mul_le_mono_nonneg_l 1 x (2 * k) ltac:(lia) ltac:(lia)) as X0. assert (X1 : m' <= 2 * k * x) by lia. assert (X2 : 0 <= y * d) by (apply Z.mul_nonneg_nonneg; lia). pose proof (Z.mul_le_mono_nonneg_r _ _ _ X2 X1) as X3. lia. }
    pose proof (G (2 ^ 52)) as G52. lia.
Qed.

(** The finite floats. *)
Definition is_float (q : Q) : Prop := exists m e, -1074 <= e /\ Z.abs m < 2 ^ 53 /\ (q == (m * 2 ^ (e + 1074)) # Z.to_pos (2 ^ 1074))%Q.
Definition in_range (n d : Z) : Prop := Z.abs n <= (2 ^ 1024 - 2 ^ 971) * d.

Lemma rnd_finite n d : 0 < d -> in_range n d -> exists s m e, rnd n d = Fin s m e /\ -1074 <= e /\ 0 <= m /\
  forall m' e', -1074 <= e' -> Z.abs m' < 2 ^ 53 -> Z.abs (signed s m * 2 ^ (e + 1074) * d - n * 2 ^ 1074) <= Z.abs (m' * 2 ^ (e' + 1074) * d - n * 2 ^ 1074).
Proof.
  intros Hd Hr. unfold rnd. destruct (Z.eqb_spec n 0) as [->|Hn].
  { exists false, 0, 0. split; [reflexivity|]. split; [lia|]. split; [lia|]. intros. cbn [signed]. rewrite !Z.mul_0_l. change (Z.abs (0 - 0)) with 0. apply Z.abs_nonneg. }
  cbv zeta. set (a := Z.abs n). assert (Ha : 0 < a) by lia. set (e := fl_exp a d). set (m := div_even (fl_num a e) (fl_den d e)).
  destruct (nearest_pos a d m e Ha Hd eq_refl eq_refl) as [He [Hm N]].
  assert (F : (0 <=? e) && (2 ^ 1024 <=? m * 2 ^ e) = false).
  { apply andb_false_iff. destruct (Z.leb_spec 0 e) as [L|L]; [right|left; reflexivity]. apply Z.leb_gt.
    (* the largest float, (2^53 - 1) * 2^971, is above a / d *)
    specialize (N (2 ^ 53 - 1) 971 ltac:(lia) ltac:(reflexivity)). replace (971 + 1074) with (971 + 1074) in N by lia. rewrite !Z.pow_add_r in N by lia.
    assert (B : a <= (2 ^ 53 - 1) * 2 ^ 971 * d). { replace ((2 ^ 53 - 1) * 2 ^ 971) with (2 ^ 1024 - 2 ^ 971); [exact Hr|]. rewrite Z.mul_sub_distr_r, <- Z.pow_add_r by lia. lia. }
    assert (Y : (2 ^ 53 - 1) * 2 ^ 971 < 2 ^ 1024). { rewrite Z.mul_sub_distr_r, <- Z.pow_add_r by lia. pose proof (pow2_pos 971 ltac:(lia)). change (53 + 971) with 1024. lia. }
    pose proof (pow2_pos 1074 ltac:(lia)) as P. set (y := (2 ^ 53 - 1) * 2 ^ 971) in *. set (K := 2 ^ 1074) in *. set (x := m * 2 ^ e) in *.
    replace (m * (2 ^ e * K) * d - a * K) with (K * (x * d - a)) in N by (subst x; ring). replace ((2 ^ 53 - 1) * (2 ^ 971 * K) * d - a * K) with (K * (y * d - a)) in N by (subst y; ring).
    rewrite !Z.abs_mul in N. rewrite (Z.abs_eq K), (Z.abs_eq (y * d - a)) in N by lia. apply Z.mul_le_mono_pos_l in N; [|exact P].
    apply (Z.le_lt_trans _ y); [|exact Y]. apply (Z.mul_le_mono_pos_r x y d Hd). lia. }
  rewrite F. exists (n <? 0), m, e. split; [reflexivity|]. split; [exact He|]. split; [lia|]. intros m' e' He' Hm'.
  destruct (Z.ltb_spec n 0) as [S|S]; cbn [signed].
  - specialize (N (- m') e' He' ltac:(lia)). clearbody m e. assert (Ea : a = - n) by lia. rewrite Ea in N.
    replace (- m * 2 ^ (e + 1074) * d - n * 2 ^ 1074) with (- (m * 2 ^ (e + 1074) * d - - n * 2 ^ 1074)) by ring.
    replace (m' * 2 ^ (e' + 1074) * d - n * 2 ^ 1074) with (- (- m' * 2 ^ (e' + 1074) * d - - n * 2 ^ 1074)) by ring. rewrite !Z.abs_opp. exact N.
  - specialize (N m' e' He' Hm'). clearbody m e. assert (Ea : a = n) by lia. rewrite Ea in N. exact N.
Qed.
Lemma to_pos_pow : Z.pos (Z.to_pos (2 ^ 1074)) = 2 ^ 1074.
Proof. apply Z2Pos.id. apply pow2_pos. lia. Qed.
Lemma value_fin s m e : value (Fin s m e) = Some ((signed s m * 2 ^ (e + 1074)) # Z.to_pos (2 ^ 1074))%Q.
Proof. unfold value. do 2 f_equal. destruct s; cbn [signed]; ring. Qed.
#[local] Opaque Z.pow.
(** What [rnd] is: in the range of the finite floats, the nearest one. *)
Lemma rnd_nearest n d : in_range n (Zpos d) -> exists q, value (rnd n (Zpos d)) = Some q /\
  forall x, is_float x -> (Qabs (q - (n # d)) <= Qabs (x - (n # d)))%Q.
Proof.
  intros Hr. destruct (rnd_finite n (Zpos d) ltac:(lia) Hr) as [s [m [e [E [He [Hm N]]]]]]. rewrite E, value_fin. eexists. split; [reflexivity|].
  intros x [m' [e' [He' [Hm' Hx]]]]. rewrite Hx. specialize (N m' e' He' Hm').
  assert (G : forall z, (Qabs ((z # Z.to_pos (2 ^ 1074)) - (n # d)) == (Z.abs (z * Zpos d - n * 2 ^ 1074)) # (Z.to_pos (2 ^ 1074) * d))%Q).
  { intros z. unfold Qminus, Qplus, Qopp, Qabs. cbn [Qnum Qden]. rewrite to_pos_pow. unfold Qeq. cbn [Qnum Qden]. f_equal. f_equal. ring. }
  rewrite !G. unfold Qle. cbn [Qnum Qden]. apply Z.mul_le_mono_nonneg_r; [lia|]. exact N.
Qed.
(** a representable quotient is not rounded *)
Lemma rnd_exact n d m' e' : 0 < d -> -1074 <= e' <= 971 -> Z.abs m' < 2 ^ 53 -> m' * 2 ^ (e' + 1074) * d = n * 2 ^ 1074 ->
  exists s m e, rnd n d = Fin s m e /\ -1074 <= e /\ signed s m * 2 ^ (e + 1074) * d = n * 2 ^ 1074.
Proof.
  intros Hd He' Hm' X. assert (Hr : in_range n d).
  { unfold in_range. replace (2 ^ 1024 - 2 ^ 971) with ((2 ^ 53 - 1) * 2 ^ 971) by (rewrite Z.mul_sub_distr_r, <- Z.pow_add_r by lia; change (53 + 971) with 1024; lia).
    pose proof (pow2_pos 1074 ltac:(lia)) as P. apply (Z.mul_le_mono_pos_r _ _ (2 ^ 1074) P). rewrite <- (Z.abs_eq (2 ^ 1074)) at 1 by lia. rewrite <- Z.abs_mul, <- X, !Z.abs_mul, (Z.abs_eq d), (Z.abs_eq (2 ^ (e' + 1074))) by (try apply Z.pow_nonneg; lia).
    assert (L : 2 ^ (e' + 1074) <= 2 ^ 971 * 2 ^ 1074) by (rewrite <- Z.pow_add_r by lia; apply Z.pow_le_mono_r; lia).
    pose proof (pow2_pos (e' + 1074) ltac:(lia)) as P'. pose proof (pow2_pos 53 ltac:(lia)) as P53. set (x := 2 ^ (e' + 1074)) in *. set (y := 2 ^ 971 * 2 ^ 1074) in *. set (k := 2 ^ 53) in *.
    replace ((k - 1) * 2 ^ 971 * d * 2 ^ 1074) with ((k - 1) * y * d) by (subst y; ring). apply Z.mul_le_mono_nonneg_r; [lia|]. apply Z.mul_le_mono_nonneg; lia. }
  destruct (rnd_finite n d Hd Hr) as [s [m [e [E [He [Hm N]]]]]]. exists s, m, e. split; [exact E|]. split; [exact He|].
  specialize (N m' e' ltac:(lia) Hm'). rewrite X in N. rewrite Z.sub_diag in N. change (Z.abs 0) with 0 in N. lia.
Qed.
(** a representable sum is not rounded; in units of 2^-1074 *)
Lemma float_add_exact sx mx ex sy my ey m' e' : -1074 <= ex -> -1074 <= ey -> -1074 <= e' <= 971 -> Z.abs m' < 2 ^ 53 ->
  signed sx mx * 2 ^ (ex + 1074) + signed sy my * 2 ^ (ey + 1074) = m' * 2 ^ (e' + 1074) ->
  exists s m e, float_add (Fin sx mx ex) (Fin sy my ey) = Fin s m e /\ -1074 <= e /\ signed s m * 2 ^ (e + 1074) = m' * 2 ^ (e' + 1074).
Proof.
  intros Hx Hy He' Hm' S. cbn [float_add]. cbv zeta. set (e0 := Z.min ex ey). set (X := signed sx mx) in *. set (Y := signed sy my) in *.
  assert (Pd : 0 < 2 ^ Z.max 0 (- e0)) by (apply pow2_pos; lia).
  assert (R : m' * 2 ^ (e' + 1074) * 2 ^ Z.max 0 (- e0) = (X * 2 ^ (ex - e0) + Y * 2 ^ (ey - e0)) * 2 ^ Z.max 0 e0 * 2 ^ 1074).
  { rewrite <- S. rewrite !Z.mul_add_distr_r, <- !Z.mul_assoc, <- !Z.pow_add_r by lia. f_equal; do 2 f_equal; lia. }
  destruct (rnd_exact _ _ m' e' Pd He' Hm' R) as [s [m [e [E [He V]]]]]. exists s, m, e. split; [exact E|]. split; [exact He|].
  rewrite <- R in V. apply Z.mul_reg_r in V; [exact V|lia].
Qed.
