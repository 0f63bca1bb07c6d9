(** Support for PropHytera*.v: total tables, radio addresses, dotted decimals, derived values. *)
From Verif Require Import PyBase Runtime Codec CodecSpec CodecProofs Enums Getters Spec DecSpec BitSpec RuntimeProofs TilesProofs DecProofs DecAlgebra GetterProofs HomebrewCor HyteraModel HyteraSpec HyteraRuns HyteraProofs HyteraCor.
From Coq Require Import ZifyBool DecimalString.
Ltac Zify.zify_post_hook ::= Z.div_mod_to_equations.
Open Scope string_scope.
Open Scope list_scope.
Open Scope Z_scope.

(** * Tables that can only fail for lack of bytes *)
Definition eof_only (K : kind) : Prop :=
  match K with
  | KStr _ _ | KMagic _ _ => False
  | KSub w f => forall b k, 0 <= k -> match f b k with Ok _ => fits b k w = true | Err e => e = EOFError /\ fits b k w = false end
  | _ => True
  end.
Lemma decode_eof_only b k c K : 0 <= k -> kind_ok c K = true -> eof_only K ->
  match decode b k c K with Ok _ => fits b k (c + kwidth K) = true | Err e => e = EOFError /\ fits b k (c + kwidth K) = false end.
Proof.
  intros Hk Ho He. unfold kind_ok in Ho. apply andb_true_iff in Ho as [Ho Hal]. apply andb_true_iff in Ho as [Hc Hw].
  unfold decode. destruct K as [f| |E f|n|en n|l path|w g]; try contradiction He.
  1-4: destruct (fits b k _) eqn:Hf; auto.
  cbn [kwidth eof_only] in *. specialize (He b (k + c / 8) ltac:(lia)). assert (E : fits b k (c + w) = fits b (k + c / 8) w) by (apply eq_true_iff_eq; rewrite !fits_iff; lia).
  rewrite E. exact He.
Qed.
Definition eof_table (fs : list field) : Prop := Forall (fun f => eof_only (f_kind f)) fs.
Lemma fields_eof_only fs : eof_table fs -> forall c b k, tiles fs c = true -> kinds_ok fs = true -> 0 <= k -> fits b k c = true ->
  match fields b k fs with Ok _ => fits b k (fs_end fs c) = true | Err e => e = EOFError /\ fits b k (fs_end fs c) = false end.
Proof.
  induction 1 as [|f fs Hf Hfs IH]; intros c b k Ht Ho Hk Hc; cbn [fields fs_end]; [exact Hc|].
  cbn [tiles kinds_ok] in *. apply andb_true_iff in Ht as [H1 H2]. apply andb_true_iff in Ho as [O1 O2]. apply Z.eqb_eq in H1. rewrite H1 in *.
  pose proof (decode_eof_only b k c _ Hk O1 Hf) as D. pose proof (fs_end_tiles fs _ H2 O2) as Hle.
  destruct (decode b k c (f_kind f)) as [v|e].
  - specialize (IH _ b k H2 O2 Hk D). destruct (fields b k fs); exact IH.
  - destruct D as [-> D]. split; [reflexivity|]. apply fits_niff. apply fits_niff in D. lia.
Qed.
Lemma short_table fs b k : eof_table fs -> table_ok fs = true -> 0 <= k <= blen b -> blen b < k + fs_end fs 0 / 8 -> fields b k fs = Err EOFError.
Proof.
  intros He Ht Hk Hs. unfold table_ok in Ht. apply andb_true_iff in Ht as [Ht Hm]. apply andb_true_iff in Ht as [Ht Ho].
  pose proof (fields_eof_only fs He 0 b k Ht Ho ltac:(lia) ltac:(apply fits_iff; lia)) as H. destruct (fields b k fs) as [a|e].
  - apply fits_iff in H. lia.
  - destruct H as [-> _]. reflexivity.
Qed.
Lemma eof_only_sub w cls fs : eof_table fs -> tiles fs 0 = true -> kinds_ok fs = true -> fs_end fs 0 = w -> fs <> [] -> 0 < w -> eof_only (KSub w (object cls fs)).
Proof.
  intros He Ht Ho Hw Hne H0 b k Hk. unfold object. destruct (Z_le_gt_dec k (blen b)) as [Hl|Hl].
  - pose proof (fields_eof_only fs He 0 b k Ht Ho Hk ltac:(apply fits_iff; lia)) as H. rewrite Hw in H. destruct (fields b k fs); exact H.
  - destruct fs as [|f fs]; [contradiction|]. inversion He as [|? ? Hf Hfs]; subst. cbn [tiles kinds_ok fields] in *. apply andb_true_iff in Ht as [H1 H2]. apply andb_true_iff in Ho as [O1 O2].
    apply Z.eqb_eq in H1. rewrite H1 in *. pose proof (decode_eof_only b k 0 _ Hk O1 Hf) as D. destruct (decode b k 0 (f_kind f)) as [v|e].
    + apply fits_iff in D. unfold kind_ok in O1. apply andb_true_iff in O1 as [O1 _]. apply andb_true_iff in O1 as [_ O1]. lia.
    + destruct D as [-> _]. cbn [rmap]. split; [reflexivity|]. apply fits_niff. lia.
Qed.
Ltac eoftable := repeat first
  [ apply Forall_nil
  | apply Forall_cons
  | match goal with
    | |- eof_table _ => unfold eof_table
    | |- Forall _ (_ ++ _) => apply Forall_app; split
    | |- Forall _ (if ?c then _ else _) => destruct c
    | |- eof_only (f_kind (F _ _ ?K)) => change (eof_only K)
    | |- eof_only (KSub _ (object _ ?fs)) => apply eof_only_sub; [unfold fs|reflexivity|reflexivity|reflexivity|discriminate|reflexivity]
    | |- eof_only _ => exact I
    end ].

(** * Radio addresses *)
(** the address object of the four bytes from byte [k] on *)
Definition radio_ip_at (b : bytes) (k : Z) : pyval := VObj "RadioIp" [
    ("subnet", VInt (ubits b (8 * k) 8)); ("radio_id_1", VInt (ubits b (8 * k + 8) 8));
    ("radio_id_2", VInt (ubits b (8 * k + 16) 8)); ("radio_id_3", VInt (ubits b (8 * k + 24) 8))].
Lemma radio_ip_ok b k : 0 <= k -> k + 4 <= blen b -> object "RadioIp" L_RadioIp b k = Ok (radio_ip_at b k).
Proof. intros Hk Hl. unfold object, L_RadioIp. plain_fields. rewrite Z.add_0_r. reflexivity. Qed.

(** evaluate a table on a packet known to be long enough *)
Ltac long_fields :=
  plain_fields; repeat (rewrite radio_ip_ok by lia); cbn [rbind rmap fst snd]; norm_lits.

(** * Dotted decimals *)
Lemma py_str_dec n : 0 <= n < 256 -> py_str_int n = dec n.
Proof.
  intros H. assert (E : forallb (fun i => if list_eq_dec Z.eq_dec (py_str_int (Z.of_nat i)) (dec (Z.of_nat i)) then true else false) (List.seq 0 256) = true) by (vm_compute; reflexivity).
  rewrite forallb_forall in E. specialize (E (Z.to_nat n) ltac:(apply in_seq; lia)). rewrite Z2Nat.id in E by lia.
  destruct (list_eq_dec _ _ _); [assumption|discriminate].
Qed.
(** reading a numeral *)
Definition numeral (s : pystr) : Z := fold_left (fun a c => 10 * a + (c - 48)) s 0.
Lemma numeral_dec n : 0 <= n < 1000 -> numeral (dec n) = n.
Proof. intros H. unfold dec, numeral. destruct (Z.ltb_spec n 10); [cbn [fold_left]; lia|]. destruct (Z.ltb_spec n 100); cbn [fold_left]; lia. Qed.
Lemma dec_digits n : 0 <= n < 1000 -> Forall (fun c => 48 <= c <= 57) (dec n).
Proof. intros H. unfold dec. destruct (Z.ltb_spec n 10); [repeat constructor; lia|]. destruct (Z.ltb_spec n 100); repeat constructor; lia. Qed.
Lemma sep_inj (x x' y y' : pystr) : Forall (fun c => 48 <= c <= 57) x -> Forall (fun c => 48 <= c <= 57) x' ->
  x ++ 46 :: y = x' ++ 46 :: y' -> x = x' /\ y = y'.
Proof.
  intros H. revert x'. induction H as [|c x Hc Hx IH]; intros [|c' x'] H' E; cbn [app] in E.
  - split; [reflexivity|congruence].
  - inversion H'; subst. assert (46 = c') by congruence. lia.
  - assert (c = 46) by congruence. lia.
  - inversion H' as [|? ? Hc' Hx']; subst. destruct (IH x' Hx' ltac:(congruence)) as [-> ->]. split; [|reflexivity]. f_equal. congruence.
Qed.
Lemma dotted_inj a0 a1 a2 a3 c0 c1 c2 c3 : 0 <= a0 < 256 -> 0 <= a1 < 256 -> 0 <= a2 < 256 -> 0 <= a3 < 256 ->
  0 <= c0 < 256 -> 0 <= c1 < 256 -> 0 <= c2 < 256 -> 0 <= c3 < 256 ->
  dotted a0 a1 a2 a3 = dotted c0 c1 c2 c3 -> a0 = c0 /\ a1 = c1 /\ a2 = c2 /\ a3 = c3.
Proof.
  intros H0 H1 H2 H3 K0 K1 K2 K3 E. unfold dotted in E. change (lit ".") with [46] in E. cbn [app] in E.
  assert (D : forall a c, 0 <= a < 256 -> 0 <= c < 256 -> dec a = dec c -> a = c).
  { intros a c Ha Hc Hd. rewrite <- (numeral_dec a), <- (numeral_dec c) by lia. rewrite Hd. reflexivity. }
  apply sep_inj in E as [E0 E]; [|apply dec_digits; lia..]. apply sep_inj in E as [E1 E]; [|apply dec_digits; lia..]. apply sep_inj in E as [E2 E3]; [|apply dec_digits; lia..].
  repeat split; apply D; assumption.
Qed.

(** * Derived values: any history of an object whose stored attributes are [base] *)
(** [val]: the value of each property *)
Lemma derived_history rt base val props o ops :
  l_attrs o = base -> forallb (fun nv => negb (is_memo (fst nv))) base = true ->
  (forall x o', intact (s_buf (l_io o)) base val o' -> let '(r, o'') := props x o' in r = val x /\ intact (s_buf (l_io o)) base val o'' /\ (forall v, val x = Ok v -> s_pos (l_io o'') = s_pos (l_io o'))) ->
  Forall (fun ob => ob_result ob = val (ob_name ob) /\ (forall v, ob_result ob = Ok v -> ob_after ob = ob_before ob)) (history rt props ops o).
Proof.
  intros Ha Hb Hs. apply (history_intact rt (s_buf (l_io o)) base val); [exact Hs|]. apply intact_open; [reflexivity|assumption|assumption].
Qed.
(** a property computed from stored attributes alone *)
Lemma pure_property b base val x compute o : (forall a s, (forall n, is_memo n = false -> lookup n a = lookup n base) -> compute a s = (val x, s)) ->
  intact b base val o -> let '(r, o') := memo x compute o in r = val x /\ intact b base val o' /\ (forall v, val x = Ok v -> s_pos (l_io o') = s_pos (l_io o)).
Proof.
  intros Hc Ho. apply memo_intact; [|exact Ho]. intros a s Ha Hs. rewrite (Hc a s Ha). split; [reflexivity|]. split; [exact Hs|reflexivity].
Qed.

Lemma slice_mid x y z : slice (x ++ y ++ z) (blen x) (blen y) = y.
Proof. rewrite <- (Z.add_0_r (blen x)). rewrite slice_shift by lia. Transparent slice. unfold slice, blen. Opaque slice. rewrite Nat2Z.id. cbn [Z.to_nat skipn]. rewrite firstn_app, firstn_all, Nat.sub_diag. cbn. apply app_nil_r. Qed.
