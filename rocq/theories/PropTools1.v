(** Properties C46, C47, C50 (see properties.jsonl): byte swapping and hexadecimal input.  Each theorem is
    followed by a concrete case. *)
From Verif Require Import PyBase RuntimeProofs ToolsModel.
From Coq Require Import ZifyBool Lia.
Ltac Zify.zify_post_hook ::= Z.div_mod_to_equations.
Open Scope string_scope.
Open Scope list_scope.
Open Scope Z_scope.

(** * Support *)
Lemma pairs_ind (P : list byte -> Prop) : P [] -> (forall x, P [x]) -> (forall x y l, P l -> P (x :: y :: l)) -> forall l : list byte, P l.
Proof.
  intros H0 H1 H2 l. enough (P l /\ forall x, P (x :: l)) by tauto. induction l as [|y l [IH1 IH2]]; [auto|]. split; [apply IH2|]. intros x. apply H2, IH1.
Qed.
(** adjacent bytes exchanged; a last single byte stays *)
Fixpoint swap_pairs (l : bytes) : bytes := match l with x :: y :: l' => y :: x :: swap_pairs l' | _ => l end.
Lemma swap_length l : List.length (swap_pairs l) = List.length l.
Proof. induction l using pairs_ind; cbn; auto. Qed.
Lemma swap_swap l : swap_pairs (swap_pairs l) = l.
Proof. induction l using pairs_ind; cbn; congruence. Qed.
Lemma lxor1_SS i : Nat.lxor (S (S i)) 1 = S (S (Nat.lxor i 1)).
Proof.
  assert (E : forall n, Nat.lxor n 1 = if Nat.even n then S n else Nat.pred n).
  { intros n. apply Nat.bits_inj. intros k. rewrite Nat.lxor_spec. destruct (Nat.even n) eqn:Hn.
    - apply Nat.even_spec in Hn as [m ->]. replace (S (2 * m))%nat with (2 * m + 1)%nat by lia. destruct k; [rewrite Nat.testbit_even_0, Nat.testbit_odd_0; reflexivity|].
      rewrite Nat.testbit_even_succ, Nat.testbit_odd_succ by lia. change 1%nat with (2 * 0 + 1)%nat. rewrite Nat.testbit_odd_succ, Nat.bits_0 by lia. apply xorb_false_r.
    - rewrite <- Nat.negb_odd in Hn. apply negb_false_iff, Nat.odd_spec in Hn as [m ->]. replace (Nat.pred (2 * m + 1)) with (2 * m)%nat by lia. destruct k; [rewrite Nat.testbit_even_0, Nat.testbit_odd_0; reflexivity|].
      rewrite Nat.testbit_even_succ, Nat.testbit_odd_succ by lia. change 1%nat with (2 * 0 + 1)%nat. rewrite Nat.testbit_odd_succ, Nat.bits_0 by lia. apply xorb_false_r. }
  rewrite !E. cbn [Nat.even]. destruct (Nat.even i) eqn:H; [reflexivity|]. destruct i; [discriminate|]. reflexivity.
Qed.
Lemma swap_nth l : Nat.even (List.length l) = true -> forall i, nth_error (swap_pairs l) i = nth_error l (Nat.lxor i 1).
Proof.
  induction l as [|x|x y l IH] using pairs_ind; intros He i; [|discriminate|].
  - cbn. rewrite !(proj2 (nth_error_None _ _)); cbn; [reflexivity|lia..].
  - destruct i as [|[|i]]; [reflexivity..|]. rewrite lxor1_SS. cbn [swap_pairs nth_error]. apply IH. exact He.
Qed.
Definition padded (b : bytes) : bytes := if negb (blen b mod 2 =? 0) then b ++ [zb 0] else b.
Lemma padded_even b : Nat.even (List.length (padded b)) = true.
Proof.
  unfold padded, blen. destruct (_ =? 0) eqn:E; cbn [negb].
  - apply Nat.even_spec. exists (Z.to_nat (Z.of_nat (List.length b) / 2)). lia.
  - rewrite app_length. apply Nat.even_spec. exists (Z.to_nat ((Z.of_nat (List.length b) + 1) / 2)). cbn [List.length]. lia.
Qed.
Lemma even_pairs l : Nat.even (List.length l) = true -> exists d2, set_evens l (odds l) = Some d2 /\ set_odds d2 (evens l) = Some (swap_pairs l).
Proof.
  induction l as [|x|x y l IH] using pairs_ind; intros He; [exists []; auto|discriminate|]. destruct (IH He) as [d2 [E1 E2]].
  exists (y :: y :: d2). cbn [odds evens set_evens set_odds swap_pairs]. rewrite E1. cbn [option_map set_odds set_evens]. rewrite E2. auto.
Qed.
Lemma byteswap_bytearray_is r h : byteswap_bytearray r h = (Ok (upto (blen (nth r h []) - 1) (swap_pairs (padded (nth r h [])))), set_buffer r (swap_pairs (padded (nth r h []))) h).
Proof.
  unfold byteswap_bytearray. cbv zeta. generalize (nth r h []). intros b. destruct (even_pairs _ (padded_even b)) as [d2 [E1 E2]].
  unfold padded in *. destruct (negb _); rewrite E1, E2; reflexivity.
Qed.
Lemma nth_new h (x : bytes) : nth (List.length h) (h ++ [x]) [] = x.
Proof. rewrite app_nth2, Nat.sub_diag by lia. reflexivity. Qed.
Lemma byteswap_bytes_is b h : fst (byteswap_bytes b h) = Ok (upto (blen b - 1) (swap_pairs (padded b))).
Proof. unfold byteswap_bytes. rewrite byteswap_bytearray_is, nth_new. reflexivity. Qed.
Lemma padded_length b : (List.length b <= List.length (padded b) <= S (List.length b))%nat.
Proof. unfold padded. destruct (negb _); rewrite ?app_length; cbn; lia. Qed.
Lemma upto_swap b : upto (blen b - 1) (swap_pairs (padded b)) = firstn (Nat.pred (List.length b)) (swap_pairs (padded b)).
Proof.
  unfold upto, blen. destruct b as [|x b]; [reflexivity|]. destruct (Z.ltb_spec (Z.of_nat (List.length (x :: b)) - 1) 0); [cbn [List.length] in *; lia|].
  f_equal. cbn [List.length Nat.pred]. lia.
Qed.
Lemma nth_firstn {A} n i (l : list A) : nth_error (firstn n l) i = if (i <? n)%nat then nth_error l i else None.
Proof.
  revert i l. induction n as [|n IH]; intros i l; [destruct i; reflexivity|]. destruct l as [|x l]; [destruct i; cbn [firstn nth_error]; [reflexivity|destruct (S i <? S n)%nat; reflexivity]|].
  destruct i as [|i]; [reflexivity|]. cbn [firstn nth_error]. rewrite IH. reflexivity.
Qed.
Lemma padded_nth b i : (i < List.length b)%nat -> nth_error (padded b) i = nth_error b i.
Proof. intros H. unfold padded. destruct (negb _); [|reflexivity]. rewrite nth_error_app1 by assumption. reflexivity. Qed.
Lemma lxor1_bound i n : (i < Nat.pred n)%nat -> (Nat.lxor i 1 < n)%nat.
Proof.
  intros H. enough (Nat.lxor i 1 <= S i)%nat by lia. clear.
  induction i as [i IH] using lt_wf_ind. destruct i as [|[|i]]; [auto..|]. rewrite lxor1_SS. specialize (IH i ltac:(lia)). lia.
Qed.

(** * C46 *)
Theorem C46_byteswap : forall b h, exists out, fst (byteswap_bytes b h) = Ok out /\
  List.length out = Nat.pred (List.length b) /\
  forall i, (i < Nat.pred (List.length b))%nat -> nth_error out i = nth_error b (Nat.lxor i 1).
Proof.
  intros b h. eexists. split; [apply byteswap_bytes_is|]. rewrite upto_swap. pose proof (padded_length b). split.
  - rewrite firstn_length, swap_length. lia.
  - intros i Hi. rewrite nth_firstn, (proj2 (Nat.ltb_lt _ _) Hi), swap_nth by apply padded_even. apply padded_nth, lxor1_bound, Hi.
Qed.
Print Assumptions C46_byteswap.
Example C46_case : fst (byteswap_bytes (B [1; 2; 3; 4; 5; 6]) []) = Ok (B [2; 1; 4; 3; 6]) /\
  fst (byteswap_bytes (B [1; 2; 3; 4; 5]) []) = Ok (B [2; 1; 4; 3]) /\ fst (byteswap_bytes [] []) = Ok [].
Proof. repeat split; reflexivity. Qed.

(** swapping the result again gives the argument without its last two bytes *)
Lemma nth_error_ext {A} (l l' : list A) : (forall i, nth_error l i = nth_error l' i) -> l = l'.
Proof.
  revert l'. induction l as [|x l IH]; intros [|y l'] H; [reflexivity|discriminate (H O)|discriminate (H O)|].
  f_equal; [specialize (H O); cbn in H; congruence|apply IH; intros i; apply (H (S i))].
Qed.
Lemma lxor1_lxor1 i : Nat.lxor (Nat.lxor i 1) 1 = i.
Proof. rewrite Nat.lxor_assoc, Nat.lxor_nilpotent, Nat.lxor_0_r. reflexivity. Qed.
Theorem C46_twice : forall b h out h2, fst (byteswap_bytes b h) = Ok out ->
  fst (byteswap_bytes out h2) = Ok (firstn (List.length b - 2) b).
Proof.
  intros b h out h2 Ho. destruct (C46_byteswap b h) as [o [E1 [E2 E3]]]. assert (o = out) by congruence. subst o.
  destruct (C46_byteswap out h2) as [o [F1 [F2 F3]]]. rewrite F1. f_equal. apply nth_error_ext. intros i. rewrite nth_firstn.
  destruct (Nat.ltb_spec i (List.length b - 2)) as [L|L].
  - rewrite F3 by lia. rewrite E3 by (rewrite <- E2; apply lxor1_bound; lia). rewrite lxor1_lxor1. reflexivity.
  - apply nth_error_None. lia.
Qed.
Print Assumptions C46_twice.
Example C46_twice_case : exists out, fst (byteswap_bytes (B [1; 2; 3; 4; 5; 6]) []) = Ok out /\ fst (byteswap_bytes out []) = Ok (B [1; 2; 3; 4]).
Proof. eexists. split; reflexivity. Qed.

(** what is lost: the last but one byte of an even number of bytes, the last one of an odd number *)
Definition lost (n : nat) : nat := if Nat.even n then n - 2 else n - 1.
Theorem C46_lossy : forall b b' h h', List.length b = List.length b' -> b <> [] ->
  (fst (byteswap_bytes b h) = fst (byteswap_bytes b' h') <->
   forall i, i <> lost (List.length b) -> nth_error b i = nth_error b' i).
Proof.
  intros b b' h h' Hl Hb. destruct (C46_byteswap b h) as [o [E1 [E2 E3]]], (C46_byteswap b' h') as [o' [F1 [F2 F3]]]. rewrite E1, F1.
  assert (Hn : (1 <= List.length b)%nat) by (destruct b; [contradiction|cbn; lia]).
  set (n := List.length b) in *. rewrite <- Hl in *.
  assert (X : forall i, (i < n)%nat -> i <> lost n -> (Nat.lxor i 1 < Nat.pred n)%nat).
  { intros i H1 H2. assert (P : Nat.lxor i 1 = if Nat.even i then S i else Nat.pred i).
    { clear. induction i as [i IH] using lt_wf_ind. destruct i as [|[|i]]; [reflexivity..|]. rewrite lxor1_SS, IH by lia. cbn [Nat.even].
      destruct i; [reflexivity|]. cbn [Nat.pred]. destruct (Nat.even (S i)); reflexivity. }
    rewrite P. unfold lost in H2. destruct (Nat.even n) eqn:N, (Nat.even i) eqn:I.
    - apply Nat.even_spec in N as [m N], I as [k I]. lia.
    - destruct i; [discriminate|]. cbn [Nat.pred]. lia.
    - rewrite <- Nat.negb_odd in N. apply negb_false_iff, Nat.odd_spec in N as [m N]. apply Nat.even_spec in I as [k I]. lia.
    - destruct i; [discriminate|]. cbn [Nat.pred]. lia. }
  assert (Y : forall i, (i < Nat.pred n)%nat -> Nat.lxor i 1 <> lost n).
  { intros i Hi E. assert (P : i = Nat.lxor (lost n) 1) by (rewrite <- E, lxor1_lxor1; reflexivity).
    assert (P' : forall k, Nat.even k = true -> Nat.lxor k 1 = S k).
    { clear. intros k Hk. apply Nat.even_spec in Hk as [m ->]. induction m as [|m IH]; [reflexivity|]. replace (2 * S m)%nat with (S (S (2 * m))) by lia. rewrite lxor1_SS, IH. lia. }
    unfold lost in P. destruct (Nat.even n) eqn:N.
    - pose proof N as N'. apply Nat.even_spec in N' as [m N']. rewrite P' in P; [lia|]. apply Nat.even_spec. exists (m - 1)%nat. lia.
    - rewrite <- Nat.negb_odd in N. apply negb_false_iff, Nat.odd_spec in N as [m N]. rewrite P' in P; [lia|]. apply Nat.even_spec. exists m. lia. }
  split.
  - intros E i Hi. assert (o = o') as <- by congruence. destruct (Nat.lt_ge_cases i n) as [L|L].
    + pose proof (X i L Hi) as Q. pose proof (E3 _ Q) as A1. pose proof (F3 _ Q) as A2. rewrite lxor1_lxor1 in A1, A2. congruence.
    + rewrite !(proj2 (nth_error_None _ _)) by lia. reflexivity.
  - intros H. f_equal. apply nth_error_ext. intros i. destruct (Nat.lt_ge_cases i (Nat.pred n)) as [L|L].
    + rewrite E3, F3 by assumption. apply H, Y, L.
    + rewrite !(proj2 (nth_error_None _ _)) by lia. reflexivity.
Qed.
Print Assumptions C46_lossy.
Example C46_lossy_case : fst (byteswap_bytes (B [1; 2; 3; 4]) []) = fst (byteswap_bytes (B [1; 2; 99; 4]) []) /\ lost 4 = 2%nat.
Proof. split; reflexivity. Qed.

(** * C47 *)
(** [byteswap_bytes] changes no existing buffer; [byteswap_bytearray] changes the caller's buffer only, into
    the swapped bytes of the buffer padded with one 0 to even length. *)
Lemma set_buffer_nth r x h i : nth_error (set_buffer r x h) i = if (i =? r)%nat then (if (r <? List.length h)%nat then Some x else None) else nth_error h i.
Proof.
  revert r i. induction h as [|y h IH]; intros r i.
  - cbn. destruct (i =? r)%nat, r; destruct i; reflexivity.
  - destruct r as [|r]; destruct i as [|i]; try reflexivity. cbn [set_buffer nth_error]. rewrite IH. reflexivity.
Qed.
Theorem C47_bytes_untouched : forall b h i, (i < List.length h)%nat -> nth_error (snd (byteswap_bytes b h)) i = nth_error h i.
Proof.
  intros b h i Hi. unfold byteswap_bytes. rewrite byteswap_bytearray_is. cbn [snd]. rewrite set_buffer_nth.
  destruct (Nat.eqb_spec i (List.length h)); [lia|]. apply nth_error_app1, Hi.
Qed.
Print Assumptions C47_bytes_untouched.
Theorem C47_bytearray_swapped : forall (r : bufref) (h : buffers) (b : bytes), nth_error h r = Some b ->
  fst (byteswap_bytearray r h) = fst (byteswap_bytes b h) /\
  (forall i, i <> r -> nth_error (snd (byteswap_bytearray r h)) i = nth_error h i) /\
  exists b', nth_error (snd (byteswap_bytearray r h)) r = Some b' /\
    let full := b ++ (if Nat.even (List.length b) then [] else [zb 0]) in
    List.length b' = List.length full /\ forall i, nth_error b' i = nth_error full (Nat.lxor i 1).
Proof.
  intros r h b Hr. assert (En : nth r h [] = b) by (apply nth_error_nth, Hr). rewrite byteswap_bytearray_is, byteswap_bytes_is, En. cbn [fst snd].
  split; [reflexivity|]. split.
  - intros i Hi. rewrite set_buffer_nth. destruct (Nat.eqb_spec i r); [contradiction|reflexivity].
  - exists (swap_pairs (padded b)). rewrite set_buffer_nth, Nat.eqb_refl. assert (r < List.length h)%nat by (apply nth_error_Some; congruence).
    rewrite (proj2 (Nat.ltb_lt _ _)) by assumption. split; [reflexivity|].
    assert (E : padded b = b ++ (if Nat.even (List.length b) then [] else [zb 0])).
    { unfold padded, blen. destruct (Nat.even (List.length b)) eqn:N.
      - apply Nat.even_spec in N as [m N]. replace (Z.of_nat (List.length b) mod 2) with 0 by lia. rewrite app_nil_r. reflexivity.
      - rewrite <- Nat.negb_odd in N. apply negb_false_iff, Nat.odd_spec in N as [m N]. replace (Z.of_nat (List.length b) mod 2) with 1 by lia. reflexivity. }
    cbv zeta. rewrite <- E. split; [apply swap_length|]. apply swap_nth, padded_even.
Qed.
Print Assumptions C47_bytearray_swapped.
(** a second call on an even buffer puts the buffer back *)
Theorem C47_bytearray_twice : forall (r : bufref) (h : buffers) (b : bytes), nth_error h r = Some b -> Nat.even (List.length b) = true ->
  snd (byteswap_bytearray r (snd (byteswap_bytearray r h))) = h.
Proof.
  intros r h b Hr He. assert (En : nth r h [] = b) by (apply nth_error_nth, Hr).
  assert (P : forall x, Nat.even (List.length x) = true -> padded x = x).
  { intros x Hx. unfold padded, blen. apply Nat.even_spec in Hx as [m Hx]. replace (Z.of_nat (List.length x) mod 2) with 0 by lia. reflexivity. }
  rewrite (byteswap_bytearray_is r h). cbn [snd]. rewrite En, (P b He). apply nth_error_ext. intros i.
  assert (Q : nth r (set_buffer r (swap_pairs b) h) [] = swap_pairs b).
  { apply nth_error_nth. rewrite set_buffer_nth, Nat.eqb_refl, (proj2 (Nat.ltb_lt _ _)) by (apply nth_error_Some; congruence). reflexivity. }
  rewrite byteswap_bytearray_is, Q. cbn [snd]. rewrite P by (rewrite swap_length; exact He). rewrite swap_swap, set_buffer_nth.
  destruct (Nat.eqb_spec i r) as [->|N].
  - rewrite Hr. assert (L : (r < List.length h)%nat) by (apply nth_error_Some; congruence).
    assert (L' : List.length (set_buffer r (swap_pairs b) h) = List.length h) by (generalize (swap_pairs b); clear; revert r; induction h; intros [|r] x; cbn; auto).
    rewrite L', (proj2 (Nat.ltb_lt _ _) L). reflexivity.
  - rewrite set_buffer_nth. destruct (Nat.eqb_spec i r); [contradiction|reflexivity].
Qed.
Print Assumptions C47_bytearray_twice.
Example C47_case : byteswap_bytearray 1%nat [B [7]; B [1; 2; 3]; B [8]] = (Ok (B [2; 1]), [B [7]; B [2; 1; 0; 3]; B [8]]) /\
  snd (byteswap_bytes (B [1; 2; 3]) [B [1; 2; 3]]) = [B [1; 2; 3]; B [2; 1; 0; 3]].
Proof. split; reflexivity. Qed.

(** * C50 *)
(** The spellings of a byte string: white space anywhere between the pairs, digits in either case. *)
Definition digit_spells (c : Z) (n : Z) : Prop :=
  (0 <= n <= 9 /\ c = 48 + n) \/ (10 <= n <= 15 /\ (c = 97 + (n - 10) \/ c = 65 + (n - 10))).
Definition space (c : Z) : Prop := c = 32 \/ 9 <= c <= 13.
Inductive spells : pystr -> bytes -> Prop :=
| spells_end : spells [] []
| spells_space c s b : space c -> spells s b -> spells (c :: s) b
| spells_byte hi lo x s b : digit_spells hi (bz x / 16) -> digit_spells lo (bz x mod 16) -> spells s b -> spells (hi :: lo :: s) (x :: b).

Lemma hex_digit_spec c n : hex_digit c = Some n <-> digit_spells c n.
Proof.
  unfold hex_digit, digit_spells. destruct (Z.leb_spec 48 c), (Z.leb_spec c 57); cbn [andb];
    try (destruct (Z.leb_spec 97 c), (Z.leb_spec c 102); cbn [andb]); try (destruct (Z.leb_spec 65 c), (Z.leb_spec c 70); cbn [andb]);
    (split; [intros [= <-]; lia|intros Hd; first [f_equal; lia|exfalso; lia]]).
Qed.
Lemma is_space_spec c : is_space c = true <-> space c.
Proof. unfold is_space, space. lia. Qed.
Lemma digit_not_space c n : digit_spells c n -> is_space c = false.
Proof. unfold is_space, digit_spells. lia. Qed.
Lemma nibble_join hi lo : 0 <= hi < 16 -> 0 <= lo < 16 -> Z.lor (Z.shiftl hi 4) lo = 16 * hi + lo.
Proof.
  intros H1 H2. set (r := map Z.of_nat (List.seq 0 16)).
  assert (A : forallb (fun h => forallb (fun l => Z.lor (Z.shiftl h 4) l =? 16 * h + l) r) r = true) by reflexivity.
  assert (I : forall z, 0 <= z < 16 -> In z r) by (intros z Hz; apply in_map_iff; exists (Z.to_nat z); rewrite in_seq; lia).
  rewrite forallb_forall in A. specialize (A hi (I hi H1)). rewrite forallb_forall in A. specialize (A lo (I lo H2)). lia.
Qed.
Lemma digit_range c n : digit_spells c n -> 0 <= n < 16.
Proof. unfold digit_spells. lia. Qed.
Theorem C50_fromhex : forall s b, fromhex s = Ok b <-> spells s b.
Proof.
  intros s b. split.
  - revert b. induction s as [s IH] using (well_founded_induction (Wf_nat.well_founded_ltof _ (@List.length Z))). intros b. destruct s as [|c s1].
    + intros H. assert (b = []) by (cbn in H; congruence). subst. constructor.
    + cbn [fromhex]. destruct (is_space c) eqn:Hc.
      * intros H. apply spells_space; [apply is_space_spec, Hc|]. apply IH; [unfold Wf_nat.ltof; cbn; lia|exact H].
      * destruct s1 as [|d s2]; [discriminate|]. destruct (hex_digit c) as [hi|] eqn:H1; [|discriminate]. destruct (hex_digit d) as [lo|] eqn:H2; [|discriminate].
        destruct (fromhex s2) as [b2|e] eqn:E; [|discriminate]. cbn [rmap]. intros H.
        apply hex_digit_spec in H1, H2. pose proof (digit_range _ _ H1). pose proof (digit_range _ _ H2).
        assert (Eb : b = zb (Z.lor (Z.shiftl hi 4) lo) :: b2) by congruence. rewrite Eb, nibble_join by assumption.
        assert (Hz : bz (zb (16 * hi + lo)) = 16 * hi + lo) by (apply bz_zb; lia).
        apply spells_byte; rewrite ?Hz.
        -- replace ((16 * hi + lo) / 16) with hi by lia. exact H1.
        -- replace ((16 * hi + lo) mod 16) with lo by lia. exact H2.
        -- apply IH; [unfold Wf_nat.ltof; cbn; lia|exact E].
  - induction 1 as [|c s b Hc _ IH|hi lo x s b Hh Hl _ IH]; [reflexivity| |].
    + cbn [fromhex]. rewrite (proj2 (is_space_spec c) Hc). exact IH.
    + cbn [fromhex]. rewrite (digit_not_space _ _ Hh), (proj2 (hex_digit_spec _ _) Hh), (proj2 (hex_digit_spec _ _) Hl), IH. cbn [rmap].
      rewrite nibble_join by (eapply digit_range; eassumption). replace (16 * (bz x / 16) + bz x mod 16) with (bz x) by lia. rewrite zb_bz. reflexivity.
Qed.
Print Assumptions C50_fromhex.
(** every other text is rejected with ValueError *)
Theorem C50_rejects : forall s, (forall b, ~ spells s b) -> fromhex s = Err ValueError.
Proof.
  intros s Hs. destruct (fromhex s) as [b|e] eqn:E; [apply C50_fromhex in E; destruct (Hs b E)|]. f_equal.
  clear Hs. revert E. induction s as [s IH] using (well_founded_induction (Wf_nat.well_founded_ltof _ (@List.length Z))). destruct s as [|c s1]; [discriminate|].
  cbn [fromhex]. destruct (is_space c); [apply IH; unfold Wf_nat.ltof; cbn; lia|].
  destruct s1 as [|d s2]; [congruence|]. destruct (hex_digit c); [|congruence]. destruct (hex_digit d); [|congruence].
  destruct (fromhex s2) as [b2|e2] eqn:E; [discriminate|]. cbn [rmap]. intros H. assert (e = e2) as -> by congruence.
  apply (IH s2); [unfold Wf_nat.ltof; cbn; lia|exact E].
Qed.
Print Assumptions C50_rejects.
(** the rendering of [bytes.hex] is a spelling: decoding it gives the bytes back *)
Theorem C50_roundtrip : forall b, fromhex (tohex b) = Ok b /\ List.length (tohex b) = (2 * List.length b)%nat.
Proof.
  intros b. split.
  - apply C50_fromhex. induction b as [|x b IH]; cbn [tohex]; [constructor|]. pose proof (bz_range x) as Hx.
    assert (S : Z.shiftr (bz x) 4 = bz x / 16) by (rewrite Z.shiftr_div_pow2 by lia; reflexivity).
    assert (L : Z.land (bz x) 15 = bz x mod 16) by (change 15 with (Z.ones 4); apply Z.land_ones; lia).
    apply spells_byte; [| |exact IH]; rewrite ?S, ?L; unfold hexchar, digit_spells.
    + destruct (Z.ltb_spec (bz x / 16) 10); lia.
    + destruct (Z.ltb_spec (bz x mod 16) 10); lia.
  - induction b as [|x b IH]; cbn [tohex List.length]; [reflexivity|]. rewrite IH. lia.
Qed.
Print Assumptions C50_roundtrip.
Example C50_case : fromhex (lit " 7E 0a" ++ [9] ++ lit "fF ") = Ok (B [0x7e; 0x0a; 0xff]) /\ tohex (B [0x7e; 0x0a]) = lit "7e0a" /\
  fromhex (lit "7 E") = Err ValueError /\ fromhex (lit "7e0") = Err ValueError.
Proof. repeat split; reflexivity. Qed.
