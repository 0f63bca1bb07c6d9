(** Properties C42 - C44 (see properties.jsonl): Motorola binary XML and its variable length integers. *)
From Verif Require Import PyBase Runtime Codec CodecSpec CodecProofs Enums EnumProofs Getters Spec DecSpec BitSpec RuntimeProofs DecProofs DecAlgebra HyteraModel MotorolaModel MotorolaSpec MotorolaProofs.
From Coq Require Import ZifyBool.
Ltac Zify.zify_post_hook ::= Z.div_mod_to_equations.
Open Scope string_scope.
Open Scope list_scope.
Open Scope Z_scope.

(** * C42 *)
(** The parser reads exactly one document, and fails unless something follows it. *)
Theorem C42_one_document : forall rt b,
  from_bytes (p_MotorolaBinaryXml rt) b =
    match document_at b 0 with
    | Ok (d, e) => if e <? blen b then Ok (VObj "MotorolaBinaryXml" [("documents", VList [d])]) else Err EOFError
    | Err e => Err e
    end.
Proof. intros rt b. rewrite mbxml_meets. unfold mbxml_spec. destruct (document_at b 0) as [[d e]|]; reflexivity. Qed.
Print Assumptions C42_one_document.
(** So the documented list of all documents is never what one gets: a payload of one document fails, and
    of two or more documents only the first is there. *)
Theorem C42_all_documents_refuted : forall rt b ds, documents b 0 (Ok ds) ->
  (forall d, ds = [d] -> from_bytes (p_MotorolaBinaryXml rt) b = Err EOFError) /\
  (forall d d' ds', ds = d :: d' :: ds' -> from_bytes (p_MotorolaBinaryXml rt) b = Ok (VObj "MotorolaBinaryXml" [("documents", VList [d])])) /\
  ds <> [].
Proof.
  intros rt b ds H. rewrite C42_one_document. inversion H as [k d e D E X Y|k d e r D E R X Y|k x D X Y]; subst.
  - rewrite D. destruct (Z.ltb_spec (blen b) (blen b)); [lia|]. split; [reflexivity|]. split; [discriminate|discriminate].
  - rewrite D. destruct (Z.ltb_spec e (blen b)); [|lia]. destruct r as [l|]; [|discriminate]. cbn [rmap] in Y. assert (ds = d :: l) by congruence. subst ds. split; [|split; [|discriminate]].
    + intros d' E'. exfalso. assert (l = []) by congruence. subst l. inversion R as [k d0 e0 D0 E0 X0 Y0|k d0 e0 r0 D0 E0 R0 X0 Y0|]; destruct r0; discriminate.
    + intros d1 d2 ds' E'. assert (d = d1) by congruence. subst. reflexivity.
Qed.
Print Assumptions C42_all_documents_refuted.
Example C42_case : exists d1 d2, documents (B [0x05; 0x02; 0x23; 0x01; 0x09; 0x00]) 0 (Ok [d1; d2]) /\
  from_bytes (p_MotorolaBinaryXml V011) (B [0x05; 0x02; 0x23; 0x01; 0x09; 0x00]) = Ok (VObj "MotorolaBinaryXml" [("documents", VList [d1])]) /\
  documents (B [0x05; 0x02; 0x23; 0x01]) 0 (Ok [d1]) /\ from_bytes (p_MotorolaBinaryXml V011) (B [0x05; 0x02; 0x23; 0x01]) = Err EOFError.
Proof.
  do 2 eexists. split; [|split; [|split]].
  - match goal with |- documents ?b 0 (Ok [?x; ?y]) => change (Ok [x; y]) with (rmap (cons x) (Ok [y])) end. eapply documents_more; [vm_compute; reflexivity|reflexivity|].
    eapply documents_last; [vm_compute; reflexivity|reflexivity].
  - vm_compute. reflexivity.
  - eapply documents_last; [vm_compute; reflexivity|reflexivity].
  - vm_compute. reflexivity.
Qed.

(** * C43 *)
Definition continued (x : byte) : Prop := 128 <= bz x.
Definition uintvar_object (cls : string) (l : bytes) : pyval := VObj cls [("payload", VList (map (fun x => VInt (bz x)) l))].
Lemma var_bytes_stop p x t : Forall continued p -> bz x < 128 -> var_bytes (p ++ x :: t) = p ++ [x].
Proof.
  intros Hp Hx. induction Hp as [|y p Hy Hp IH]; cbn [app var_bytes].
  - destruct (Z.ltb_spec (bz x) 128); [reflexivity|lia].
  - unfold continued in Hy. destruct (Z.ltb_spec (bz y) 128); [lia|]. rewrite IH. reflexivity.
Qed.
Lemma var_bytes_all p : Forall continued p -> var_bytes p = p.
Proof.
  intros Hp. induction Hp as [|y p Hy Hp IH]; cbn [var_bytes]; [reflexivity|]. unfold continued in Hy. destruct (Z.ltb_spec (bz y) 128); [lia|]. rewrite IH. reflexivity.
Qed.
Theorem C43_uintvar_bytes : forall rt,
  from_bytes (p_MotorolaBinaryXml_Uintvar rt) [] = Err EOFError /\
  (forall p x t, Forall continued p -> bz x < 128 -> from_bytes (p_MotorolaBinaryXml_Uintvar rt) (p ++ x :: t) = Ok (uintvar_object "MotorolaBinaryXml.Uintvar" (p ++ [x]))) /\
  (forall p, Forall continued p -> p <> [] -> from_bytes (p_MotorolaBinaryXml_Uintvar rt) p = Ok (uintvar_object "MotorolaBinaryXml.Uintvar" p)).
Proof.
  intros rt. rewrite !(runs_dec_from_bytes _ _ (d_uintvar rt)). split; [reflexivity|]. split.
  - intros p x t Hp Hx. rewrite (runs_dec_from_bytes _ _ (d_uintvar rt)). unfold stand_alone, uintvar_at, var_at. change (rest (p ++ x :: t) 0) with (p ++ x :: t).
    rewrite var_bytes_stop by assumption. destruct (Z.leb_spec (blen (p ++ x :: t)) 0); [|reflexivity]. unfold blen in *. rewrite app_length in *. cbn [List.length] in *. lia.
  - intros p Hp Hn. rewrite (runs_dec_from_bytes _ _ (d_uintvar rt)). unfold stand_alone, uintvar_at, var_at. change (rest p 0) with p. rewrite var_bytes_all by assumption.
    destruct p; [contradiction|]. destruct (Z.leb_spec (blen (b :: p)) 0); [|reflexivity]. unfold blen in *. cbn [List.length] in *. lia.
Qed.
Print Assumptions C43_uintvar_bytes.
(** The value: a base-128 number, whatever the payload. *)
Lemma land_7f x : Z.land x 0x7f = x mod 128.
Proof. change 0x7f with (Z.ones 7). apply Z.land_ones. lia. Qed.
Theorem C43_uintvar_value : forall l, uintvar_to_int l = base128 l /\ 0 <= base128 l < 128 ^ Z.of_nat (List.length l).
Proof.
  intros l. split.
  - unfold uintvar_to_int, base128. generalize 0. induction l as [|x l IH]; intros r; cbn [fold_left]; [reflexivity|]. rewrite IH. f_equal. rewrite land_7f, Z.shiftl_mul_pow2 by lia. lia.
  - assert (G : forall l r, 0 <= r -> 0 <= fold_left (fun r x => 128 * r + x mod 128) l r < 128 ^ Z.of_nat (List.length l) * (r + 1)).
    { clear l. induction l as [|x l IH]; intros r Hr; cbn [fold_left List.length]; [change (Z.of_nat 0) with 0; change (128 ^ 0) with 1; lia|].
      pose proof (Z.mod_pos_bound x 128 ltac:(lia)) as B. specialize (IH (128 * r + x mod 128) ltac:(lia)). rewrite Nat2Z.inj_succ, Z.pow_succ_r by lia.
      assert (0 < 128 ^ Z.of_nat (List.length l)) by (apply Z.pow_pos_nonneg; lia). nia. }
    specialize (G l 0 ltac:(lia)). unfold base128. lia.
Qed.
Print Assumptions C43_uintvar_value.
(** An encoder: [k] groups of seven bits, all but the last with the continue flag. *)
Fixpoint groups (k : nat) (n : Z) : list Z := match k with O => [] | S k' => groups k' (n / 128) ++ [n mod 128] end.
Fixpoint flagged (l : list Z) : list Z := match l with [] => [] | [x] => [x] | x :: l' => (x + 128) :: flagged l' end.
Definition encode_uintvar (k : nat) (n : Z) : list Z := flagged (groups k n).
Lemma groups_len k n : List.length (groups k n) = k.
Proof. revert n. induction k as [|k IH]; intros n; cbn [groups]; [reflexivity|]. rewrite app_length, IH. cbn [List.length]. lia. Qed.
Lemma groups_range k n : Forall (fun x => 0 <= x < 128) (groups k n).
Proof.
  revert n. induction k as [|k IH]; intros n; cbn [groups]; [constructor|]. apply Forall_app. split; [apply IH|]. constructor; [|constructor]. apply Z.mod_pos_bound. lia.
Qed.
Lemma base128_app l x : base128 (l ++ [x]) = 128 * base128 l + x mod 128.
Proof. unfold base128. rewrite fold_left_app. reflexivity. Qed.
Lemma base128_groups k n : 0 <= n < 128 ^ Z.of_nat k -> base128 (groups k n) = n.
Proof.
  revert n. induction k as [|k IH]; intros n Hn; cbn [groups].
  - change (128 ^ Z.of_nat 0) with 1 in Hn. assert (n = 0) by lia. subst. reflexivity.
  - rewrite Nat2Z.inj_succ, Z.pow_succ_r in Hn by lia. rewrite base128_app, IH by (split; [lia|apply Z.div_lt_upper_bound; lia]). rewrite Z.mod_mod by lia. lia.
Qed.
Lemma flagged_mod l : map (fun x => x mod 128) (flagged l) = map (fun x => x mod 128) l.
Proof.
  induction l as [|x l IH]; [reflexivity|]. destruct l as [|y l]; [reflexivity|]. change (flagged (x :: y :: l)) with ((x + 128) :: flagged (y :: l)). rewrite !map_cons, IH. f_equal. lia.
Qed.
Lemma base128_mod l : base128 l = base128 (map (fun x => x mod 128) l).
Proof.
  unfold base128. generalize 0. induction l as [|x l IH]; intros r; [reflexivity|]. cbn [map fold_left]. rewrite IH. f_equal. rewrite Z.mod_mod by lia. reflexivity.
Qed.
Lemma flagged_split l x : Forall (fun x => 0 <= x < 128) (l ++ [x]) -> exists p, flagged (l ++ [x]) = p ++ [x] /\ Forall (fun y => 128 <= y < 256) p.
Proof.
  induction l as [|y l IH]; intros H; cbn [app] in *; [exists []; split; [reflexivity|constructor]|]. apply Forall_cons_iff in H as [Hy H]. destruct (IH H) as [p [E P]].
  exists ((y + 128) :: p). split; [|constructor; [lia|assumption]]. destruct l as [|z l]; cbn [app] in *; [change (flagged [y; x]) with ((y + 128) :: flagged [x]); rewrite E|change (flagged (y :: z :: l ++ [x])) with ((y + 128) :: flagged (z :: l ++ [x])); rewrite E]; reflexivity.
Qed.
(** Encoding any number below 128^k in [k] groups and decoding - whatever follows - gives the number. *)
Theorem C43_roundtrip : forall rt k n t, 0 <= n < 128 ^ Z.of_nat (S k) ->
  from_bytes (p_MotorolaBinaryXml_Uintvar rt) (B (encode_uintvar (S k) n) ++ t) = Ok (VObj "MotorolaBinaryXml.Uintvar" [("payload", VList (map VInt (encode_uintvar (S k) n)))]) /\
  uintvar_to_int (encode_uintvar (S k) n) = n.
Proof.
  intros rt k n t Hn. split.
  - unfold encode_uintvar. cbn [groups]. pose proof (groups_range (S k) n) as R. cbn [groups] in R. destruct (flagged_split _ _ R) as [p [E P]]. rewrite E.
    assert (Hx : 0 <= n mod 128 < 128) by (apply Z.mod_pos_bound; lia).
    unfold B. rewrite map_app, <- app_assoc. cbn [map app]. rewrite (proj1 (proj2 (C43_uintvar_bytes rt))).
    + unfold uintvar_object. do 6 f_equal. rewrite !map_app. cbn [map]. rewrite bz_zb by lia. f_equal. rewrite map_map. apply map_ext_Forall. eapply Forall_impl; [|exact P]. cbv beta. intros y Hy. rewrite bz_zb by lia. reflexivity.
    + rewrite Forall_map. apply (Forall_impl _ (P := fun y => 128 <= y < 256)); [|exact P]. intros y Hy. unfold continued. rewrite bz_zb by lia. lia.
    + rewrite bz_zb by lia. lia.
  - rewrite (proj1 (C43_uintvar_value _)), base128_mod. unfold encode_uintvar. rewrite flagged_mod, <- base128_mod. apply base128_groups. exact Hn.
Qed.
Print Assumptions C43_roundtrip.
(** every natural number fits some number of groups *)
Theorem C43_every_number : forall n, 0 <= n -> exists k, 0 <= n < 128 ^ Z.of_nat (S k).
Proof.
  intros n Hn. exists (Z.to_nat n). split; [assumption|]. rewrite Nat2Z.inj_succ, Z2Nat.id by lia.
  apply (Z.lt_le_trans _ (2 ^ Z.succ n)); [|apply Z.pow_le_mono_l; lia]. apply (Z.lt_trans _ (Z.succ n)); [lia|]. apply Z.pow_gt_lin_r; lia.
Qed.
Print Assumptions C43_every_number.
Example C43_case : encode_uintvar 3 0x87A5 = [0x82; 0x8F; 0x25] /\ uintvar_to_int [0x82; 0x8F; 0x25] = 0x87A5 /\
  from_bytes (p_MotorolaBinaryXml_Uintvar V010) (B [0x82; 0x8F; 0x25; 0x77]) = Ok (VObj "MotorolaBinaryXml.Uintvar" [("payload", VList [VInt 0x82; VInt 0x8F; VInt 0x25])]).
Proof. repeat split; vm_compute; reflexivity. Qed.
(** the documented bound of 32 bits is not enforced *)
Theorem C43_documented_bound_refuted : exists b l, from_bytes (p_MotorolaBinaryXml_Uintvar V011) b = Ok (VObj "MotorolaBinaryXml.Uintvar" [("payload", VList (map VInt l))]) /\ 2 ^ 32 <= uintvar_to_int l.
Proof. exists (B [0xff; 0xff; 0xff; 0xff; 0x7f]), [0xff; 0xff; 0xff; 0xff; 0x7f]. split; [vm_compute; reflexivity|vm_compute; discriminate]. Qed.
Print Assumptions C43_documented_bound_refuted.

(** * C44 *)
Lemma int_base2_app l d : int_base2 (l ++ [d]) = 2 * int_base2 l + Z.b2z d.
Proof. unfold int_base2. rewrite fold_left_app. reflexivity. Qed.
Lemma bin_pos_shape p : exists l, bin_pos p = true :: l /\ int_base2 (false :: l) = Zpos p - 2 ^ Z.log2 (Zpos p).
Proof.
  induction p as [q [l [E IH]]|q [l [E IH]]|].
  - exists (l ++ [true]). cbn [bin_pos]. rewrite E. split; [reflexivity|]. change (false :: l ++ [true]) with ((false :: l) ++ [true]). rewrite int_base2_app, IH.
    rewrite (Pos2Z.inj_xI q), Z.log2_succ_double, Z.pow_succ_r by (try apply Z.log2_nonneg; lia). cbn [Z.b2z]. lia.
  - exists (l ++ [false]). cbn [bin_pos]. rewrite E. split; [reflexivity|]. change (false :: l ++ [false]) with ((false :: l) ++ [false]). rewrite int_base2_app, IH.
    rewrite (Pos2Z.inj_xO q), Z.log2_double, Z.pow_succ_r by (try apply Z.log2_nonneg; lia). cbn [Z.b2z]. lia.
  - exists []. split; reflexivity.
Qed.
Lemma clear_msb_value u : 0 <= u -> clear_msb u = if u =? 0 then 0 else u - 2 ^ Z.log2 u.
Proof.
  intros Hu. destruct u as [|p|p]; [reflexivity| |lia]. unfold clear_msb. cbn [bin_digits]. destruct (bin_pos_shape p) as [l [E H]]. rewrite E. exact H.
Qed.
Lemma land_64 x : 0 <= x < 256 -> (0 <? Z.land x 64) = (64 <=? x mod 128).
Proof.
  intros H. assert (E : forallb (fun i => Bool.eqb (0 <? Z.land (Z.of_nat i) 64) (64 <=? Z.of_nat i mod 128)) (List.seq 0 256) = true) by (vm_compute; reflexivity).
  rewrite forallb_forall in E. specialize (E (Z.to_nat x) ltac:(apply in_seq; lia)). rewrite Z2Nat.id in E by lia. apply eqb_prop in E. exact E.
Qed.
Lemma base128_cons x l : base128 (x :: l) = x mod 128 * 128 ^ Z.of_nat (List.length l) + base128 l.
Proof.
  unfold base128. cbn [fold_left]. rewrite Z.mul_0_r, Z.add_0_l. generalize (x mod 128) as r. clear x.
  assert (G : forall l r, fold_left (fun r x => 128 * r + x mod 128) l r = r * 128 ^ Z.of_nat (List.length l) + fold_left (fun r x => 128 * r + x mod 128) l 0).
  { clear l. induction l as [|x l IH]; intros r; cbn [fold_left List.length]; [change (Z.of_nat 0) with 0; lia|]. rewrite IH, (IH (128 * 0 + x mod 128)), Nat2Z.inj_succ, Z.pow_succ_r by lia. ring. }
  intros r. apply G.
Qed.
(** What the function gives for a payload with a negative / non-negative sign bit: [u] is the number with
    the sign bit, [w] the weight of the sign bit. *)
Theorem C44_sintvar_value : forall x l, 0 <= x < 256 ->
  let u := base128 (x :: l) in
  let w := 64 * 128 ^ Z.of_nat (List.length l) in
  sintvar_to_int (x :: l) = if 64 <=? x mod 128 then - (u - w) else if u =? 0 then 0 else u - 2 ^ Z.log2 u.
Proof.
  intros x l Hx u w. unfold sintvar_to_int. rewrite (proj1 (C43_uintvar_value _)). fold u. cbn [hd]. rewrite land_64 by assumption.
  pose proof (proj2 (C43_uintvar_value l)) as Bl. assert (Hu : 0 <= u) by (apply (C43_uintvar_value (x :: l))). rewrite clear_msb_value by assumption.
  assert (Hw : w = 64 * 128 ^ Z.of_nat (List.length l)) by reflexivity. assert (H128 : 0 < 128 ^ Z.of_nat (List.length l)) by (apply Z.pow_pos_nonneg; lia).
  destruct (Z.leb_spec 64 (x mod 128)) as [N|N]; [|reflexivity].
  assert (R : w <= u < 2 * w). { subst u. rewrite base128_cons. pose proof (Z.mod_pos_bound x 128 ltac:(lia)). nia. }
  assert (P : w = 2 ^ (6 + 7 * Z.of_nat (List.length l))). { rewrite Hw, Z.pow_add_r, Z.pow_mul_r by lia. reflexivity. }
  assert (L : Z.log2 u = 6 + 7 * Z.of_nat (List.length l)). { apply Z.log2_unique; [lia|]. rewrite Z.pow_succ_r, <- P by lia. lia. }
  rewrite L, <- P. destruct (Z.eqb_spec u 0); lia.
Qed.
Print Assumptions C44_sintvar_value.
(** Encoding sign and magnitude in [k + 1] groups: the sign bit is bit 0x40 of the first one. *)
Definition encode_sintvar (k : nat) (negative : bool) (magnitude : Z) : list Z := encode_uintvar (S k) (magnitude + (if negative then 64 * 128 ^ Z.of_nat k else 0)).
Lemma encode_sintvar_shape k s m : 0 <= m < 64 * 128 ^ Z.of_nat k -> exists x l, encode_sintvar k s m = x :: l /\ 0 <= x < 256 /\ List.length l = k /\
  base128 (x :: l) = m + (if s then 64 * 128 ^ Z.of_nat k else 0) /\ (64 <=? x mod 128) = s.
Proof.
  intros Hm. assert (H128 : 0 < 128 ^ Z.of_nat k) by (apply Z.pow_pos_nonneg; lia). set (n := m + _).
  assert (Hn : 0 <= n < 128 ^ Z.of_nat (S k)) by (subst n; rewrite Nat2Z.inj_succ, Z.pow_succ_r by lia; destruct s; lia).
  assert (V : base128 (encode_sintvar k s m) = n) by (unfold encode_sintvar; fold n; rewrite <- (proj1 (C43_uintvar_value _)); apply (C43_roundtrip V010 k n [] Hn)).
  assert (Hl : List.length (encode_sintvar k s m) = S k).
  { unfold encode_sintvar, encode_uintvar. rewrite <- (map_length (fun x => x mod 128)), flagged_mod, map_length. apply groups_len. }
  assert (R : Forall (fun x => 0 <= x < 256) (encode_sintvar k s m)).
  { unfold encode_sintvar, encode_uintvar. fold n. cbn [groups]. pose proof (groups_range (S k) n) as R. cbn [groups] in R. destruct (flagged_split _ _ R) as [p [E P]]. rewrite E. apply Forall_app.
    apply Forall_app in R as [_ R]. split; [|eapply Forall_impl; [|exact R]; cbv beta; lia]. eapply Forall_impl; [|exact P]. cbv beta. lia. }
  destruct (encode_sintvar k s m) as [|x l]; [discriminate|]. exists x, l. apply Forall_cons_iff in R as [R _]. assert (Lk : List.length l = k) by (cbn [List.length] in Hl; lia).
  split; [reflexivity|]. split; [exact R|]. split; [exact Lk|]. split; [exact V|].
  rewrite base128_cons, Lk in V. pose proof (proj2 (C43_uintvar_value l)) as Bl. rewrite Lk in Bl. pose proof (Z.mod_pos_bound x 128 ltac:(lia)). subst n. destruct s; destruct (Z.leb_spec 64 (x mod 128)); try reflexivity; nia.
Qed.
(** Negative numbers and zero are decoded correctly, for every width ... *)
Theorem C44_negative_roundtrip : forall k m, 0 <= m < 64 * 128 ^ Z.of_nat k ->
  sintvar_to_int (encode_sintvar k true m) = - m /\ sintvar_to_int (encode_sintvar k false 0) = 0.
Proof.
  intros k m Hm. split.
  - destruct (encode_sintvar_shape k true m Hm) as [x [l [E [Hx [Hl [V S]]]]]]. rewrite E, C44_sintvar_value by assumption. cbv zeta. rewrite S, V, Hl. lia.
  - destruct (encode_sintvar_shape k false 0 ltac:(lia)) as [x [l [E [Hx [Hl [V S]]]]]]. rewrite E, C44_sintvar_value by assumption. cbv zeta. rewrite S, V. reflexivity.
Qed.
Print Assumptions C44_negative_roundtrip.
(** ... but no positive number is: its highest set bit is lost. *)
Theorem C44_positive_refuted : forall k m, 0 < m < 64 * 128 ^ Z.of_nat k ->
  sintvar_to_int (encode_sintvar k false m) = m - 2 ^ Z.log2 m /\ sintvar_to_int (encode_sintvar k false m) <> m.
Proof.
  intros k m Hm. assert (E' : sintvar_to_int (encode_sintvar k false m) = m - 2 ^ Z.log2 m).
  { destruct (encode_sintvar_shape k false m ltac:(lia)) as [x [l [E [Hx [Hl [V S]]]]]]. rewrite E, C44_sintvar_value by assumption. cbv zeta. rewrite S, V, Z.add_0_r. destruct (Z.eqb_spec m 0); [lia|reflexivity]. }
  split; [exact E'|]. rewrite E'. assert (0 < 2 ^ Z.log2 m) by (apply Z.pow_pos_nonneg; [lia|apply Z.log2_nonneg]). lia.
Qed.
Print Assumptions C44_positive_refuted.
Example C44_case : encode_sintvar 1 true 0xA0 = [0xC1; 0x20] /\ sintvar_to_int [0xC1; 0x20] = -0xA0 /\ encode_sintvar 0 false 0x25 = [0x25] /\ sintvar_to_int [0x25] = 5.
Proof. repeat split; vm_compute; reflexivity. Qed.
