(** Where a decoded object comes from: locality (only the bytes of the message matter), position
    independence, and the exceptions a decoder can raise. *)
From Verif Require Import PyBase Runtime Codec CodecSpec Spec DecSpec RuntimeProofs TilesProofs.
From Coq Require Import ZifyBool.
Ltac Zify.zify_post_hook ::= Z.div_mod_to_equations.
Open Scope string_scope.
Open Scope list_scope.
Open Scope Z_scope.

(** * Agreement of two packets on their first [e] bytes *)
Definition agree (e : Z) (b b' : bytes) : Prop := exists x t t', b = x ++ t /\ b' = x ++ t' /\ blen x = e.

Lemma agree_blen e b b' : agree e b b' -> e <= blen b /\ e <= blen b'.
Proof. intros [x [t [t' [-> [-> <-]]]]]. unfold blen. rewrite !app_length. lia. Qed.
Lemma agree_sym e b b' : agree e b b' -> agree e b' b.
Proof. intros [x [t [t' [-> [-> <-]]]]]. exists x, t', t. auto. Qed.
Lemma agree_mono e e' b b' : 0 <= e' <= e -> agree e b b' -> agree e' b b'.
Proof.
  intros He [x [t [t' [-> [-> Hx]]]]]. exists (firstn (Z.to_nat e') x), (skipn (Z.to_nat e') x ++ t), (skipn (Z.to_nat e') x ++ t').
  rewrite !app_assoc, !firstn_skipn. repeat split. unfold blen in *. rewrite firstn_length. lia.
Qed.
Lemma agree_app b t : agree (blen b) b (b ++ t).
Proof. exists b, [], t. rewrite app_nil_r. auto. Qed.
Lemma agree_bit e b b' i : agree e b b' -> 0 <= i < 8 * e -> bit b i = bit b' i.
Proof.
  intros [x [t [t' [-> [-> Hx]]]]] Hi. unfold bit. unfold blen in Hx. rewrite !app_nth1 by lia. reflexivity.
Qed.
Lemma agree_nth e b b' i d : agree e b b' -> 0 <= i < e -> nth (Z.to_nat i) b d = nth (Z.to_nat i) b' d.
Proof.
  intros [x [t [t' [-> [-> Hx]]]]] Hi. unfold blen in Hx. rewrite !app_nth1 by lia. reflexivity.
Qed.
Lemma agree_ubits e b b' o w : agree e b b' -> 0 <= o -> 0 <= w -> o + w <= 8 * e -> ubits b o w = ubits b' o w.
Proof.
  intros Ha Ho Hw. Transparent ubits. unfold ubits. Opaque ubits. rewrite <- (Z2Nat.id w) at 1 by assumption. induction (Z.to_nat w) as [|n IH]; intros Hle; [reflexivity|].
  cbn [ubits_n]. rewrite IH by lia. rewrite (agree_bit e b b') by (assumption || lia). reflexivity.
Qed.
Lemma agree_slice e b b' p n : agree e b b' -> 0 <= p -> p + n <= e -> slice b p n = slice b' p n.
Proof.
  intros [x [t [t' [-> [-> Hx]]]]] Hp Hn. Transparent slice. unfold slice. Opaque slice. unfold blen in Hx.
  rewrite !skipn_app, !firstn_app. f_equal.
  replace (Z.to_nat n - List.length (skipn (Z.to_nat p) x))%nat with 0%nat by (rewrite skipn_length; lia). reflexivity.
Qed.
Lemma agree_fits e b b' k c : agree e b b' -> 8 * k + c <= 8 * e -> fits b' k c = true.
Proof. intros Ha Hc. apply agree_blen in Ha. apply fits_iff. lia. Qed.

(** * Locality *)
Definition kind_local (K : kind) : Prop :=
  match K with
  | KSub w f => forall b k v, 0 <= k -> f b k = Ok v -> fits b k w = true /\ forall b' e, 8 * k + w <= 8 * e -> agree e b b' -> f b' k = Ok v
  | _ => True
  end.

Lemma decode_local b k c K v : 0 <= k -> kind_ok c K = true -> kind_local K -> decode b k c K = Ok v ->
  fits b k (c + kwidth K) = true /\ forall b' e, 8 * k + c + kwidth K <= 8 * e -> agree e b b' -> decode b' k c K = Ok v.
Proof.
  intros Hk Ho Hl Hd. unfold kind_ok in Ho. apply andb_true_iff in Ho as [Ho Hal]. apply andb_true_iff in Ho as [Hc Hw].
  apply Z.leb_le in Hc, Hw. unfold decode in Hd. destruct K as [f| |E f|n|en n|l path|w g].
  7:{ cbn [kind_local decode kwidth] in *. destruct (Hl b (k + c / 8) v ltac:(lia) Hd) as [F1 F2]. split.
      - apply fits_iff in F1. apply fits_iff. lia.
      - intros b' e He Ha. apply (F2 b' e); [lia|assumption]. }
  all: destruct (fits b k _) eqn:Hf; [|discriminate]; split; [reflexivity|]; intros b' e He Ha; unfold decode;
       rewrite (agree_fits e b b') by (assumption || lia); rewrite <- Hd; cbn [kwidth] in *.
  - f_equal. f_equal. destruct f as [w|n|]; cbn [num nwidth] in *.
    + symmetry. eapply agree_ubits; [eassumption|lia..].
    + f_equal. symmetry. eapply agree_slice; [eassumption|lia..].
    + rewrite (agree_ubits e b b') by (assumption || lia). reflexivity.
  - f_equal. f_equal. symmetry. eapply agree_bit; [eassumption|lia].
  - f_equal. f_equal. destruct f as [w|n|]; cbn [num nwidth] in *.
    + symmetry. eapply agree_ubits; [eassumption|lia..].
    + f_equal. symmetry. eapply agree_slice; [eassumption|lia..].
    + rewrite (agree_ubits e b b') by (assumption || lia). reflexivity.
  - rewrite (agree_slice e b b') by (assumption || lia). reflexivity.
  - rewrite (agree_slice e b b') by (assumption || lia). reflexivity.
  - rewrite (agree_slice e b b') by (assumption || lia). reflexivity.
Qed.

Definition kinds_local (fs : list field) : Prop := Forall (fun f => kind_local (f_kind f)) fs.

Lemma fields_local fs : kinds_local fs -> forall c b k a, tiles fs c = true -> kinds_ok fs = true -> 0 <= k -> fits b k c = true ->
  fields b k fs = Ok a -> fits b k (fs_end fs c) = true /\ forall b' e, 8 * k + fs_end fs c <= 8 * e -> agree e b b' -> fields b' k fs = Ok a.
Proof.
  induction 1 as [|f fs Hf Hfs IH]; intros c b k a Ht Ho Hk Hc H.
  - cbn in *. split; [assumption|auto].
  - cbn [fields tiles kinds_ok fs_end] in *. apply andb_true_iff in Ht as [H1 H2]. apply andb_true_iff in Ho as [O1 O2].
    apply Z.eqb_eq in H1. rewrite H1 in *.
    destruct (decode b k c (f_kind f)) as [v|e0] eqn:Hd; [|discriminate].
    destruct (fields b k fs) as [a'|e0] eqn:Hf'; [|discriminate].
    assert (E : a = (f_name f, v) :: a') by congruence. subst a.
    destruct (decode_local _ _ _ _ _ Hk O1 Hf Hd) as [F1 F2].
    destruct (IH _ b k a' H2 O2 Hk F1 Hf') as [G1 G2]. split; [exact G1|].
    intros b' e He Ha. pose proof (fs_end_tiles fs _ H2 O2) as Hle.
    rewrite (F2 b' e), (G2 b' e) by (assumption || lia). reflexivity.
Qed.

(** A decoder is local: it consumes [k .. e) inside the packet and any packet with the same first [e]
    bytes gives the same result. *)
Definition local (f : decoder) : Prop := forall b k v e, 0 <= k <= blen b -> f b k = Ok (v, e) ->
  k <= e <= blen b /\ forall b', agree e b b' -> f b' k = Ok (v, e).

Definition table_ok (fs : list field) : bool := tiles fs 0 && kinds_ok fs && (fs_end fs 0 mod 8 =? 0).

Lemma table_fields fs b k a : table_ok fs = true -> kinds_local fs -> 0 <= k <= blen b -> fields b k fs = Ok a ->
  0 <= fs_end fs 0 /\ k + fs_end fs 0 / 8 <= blen b /\ forall b' e, k + fs_end fs 0 / 8 <= e -> agree e b b' -> fields b' k fs = Ok a.
Proof.
  intros Ht Hl Hk H. unfold table_ok in Ht. apply andb_true_iff in Ht as [Ht Hm]. apply andb_true_iff in Ht as [Ht Ho]. apply Z.eqb_eq in Hm.
  pose proof (fs_end_tiles fs _ Ht Ho).
  destruct (fields_local fs Hl 0 b k a Ht Ho ltac:(lia) ltac:(apply fits_iff; lia) H) as [F1 F2]. apply fits_iff in F1.
  split; [lia|]. split; [lia|]. intros b' e He Ha. apply (F2 b' e); [lia|assumption].
Qed.

Lemma local_table cls fs : table_ok fs = true -> kinds_local fs -> local (table cls fs).
Proof.
  intros Ht Hl b k v e Hk H. unfold table in *. destruct (fields b k fs) as [a|y] eqn:E; [|discriminate].
  cbn [rbind] in H. assert (e = k + fs_end fs 0 / 8) as -> by congruence.
  destruct (table_fields fs b k a Ht Hl Hk E) as [F0 [F1 F2]]. split; [lia|]. intros b' Ha. rewrite (F2 b' _ (Z.le_refl _) Ha). exact H.
Qed.

Lemma bytes_at_local b p n x : 0 <= p -> bytes_at b p n = Ok x -> 0 <= n /\ p + n <= blen b /\ forall b' e, p + n <= e -> agree e b b' -> bytes_at b' p n = Ok x.
Proof.
  intros Hp. unfold bytes_at. destruct (Z.ltb_spec n 0); [discriminate|]. destruct (Z.leb_spec (p + n) (blen b)); [|discriminate].
  intros E. split; [lia|]. split; [lia|]. intros b' e He Ha. rewrite <- E. pose proof (agree_blen _ _ _ Ha).
  destruct (Z.leb_spec (p + n) (blen b')); [|lia]. rewrite (agree_slice e b b') by (assumption || lia). reflexivity.
Qed.
Lemma text_at_local en b p n x : 0 <= p -> text_at en b p n = Ok x -> 0 <= n /\ p + n <= blen b /\ forall b' e, p + n <= e -> agree e b b' -> text_at en b' p n = Ok x.
Proof.
  intros Hp. unfold text_at. destruct (bytes_at b p n) as [y|y] eqn:E; [|discriminate]. cbn [rbind]. intros H.
  destruct (bytes_at_local _ _ _ _ Hp E) as [F0 [F1 F2]]. split; [exact F0|]. split; [exact F1|]. intros b' e He Ha. rewrite (F2 b' e He Ha). exact H.
Qed.
Lemma part_local n f b k a e : 0 <= k <= blen b -> (forall g, f = Some g -> local g) -> part n f b k = Ok (a, e) ->
  k <= e <= blen b /\ forall b', agree e b b' -> part n f b' k = Ok (a, e).
Proof.
  intros Hk Hl. destruct f as [g|]; cbn [part]; intros H.
  - destruct (g b k) as [[v e']|y] eqn:E; [|discriminate]. cbn [rbind fst snd] in H. assert (e' = e) as -> by congruence.
    destruct (Hl g eq_refl b k v e Hk E) as [F1 F2]. split; [exact F1|]. intros b' Ha. rewrite (F2 b' Ha). exact H.
  - assert (e = k) as -> by congruence. split; [lia|]. auto.
Qed.
Lemma select_local z t : Forall (fun zf => local (snd zf)) t -> forall g, select z t = Some g -> local g.
Proof.
  induction 1 as [|[c f] t Hf Ht IH]; cbn [select]; [discriminate|]. intros g. destruct (z =? c); [|apply IH]. intros E. assert (f = g) as <- by congruence. exact Hf.
Qed.

(** nested tables *)
Lemma kind_local_sub w cls fs : table_ok fs = true -> kinds_local fs -> fs_end fs 0 = w -> fs <> [] -> kind_local (KSub w (object cls fs)).
Proof.
  intros Ht Hl Hw Hne b k v Hk H. unfold object in *. destruct (fields b k fs) as [a|y] eqn:E; [|discriminate].
  cbn [rmap] in H. assert (v = VObj cls a) as -> by congruence.
  unfold table_ok in Ht. apply andb_true_iff in Ht as [Ht Hm]. apply andb_true_iff in Ht as [Ht Ho]. apply Z.eqb_eq in Hm.
  assert (Hf : fits b k 0 = true).
  { destruct fs as [|f fs]; [contradiction|]. cbn [fields tiles kinds_ok] in *. apply andb_true_iff in Ht as [H1 H2]. apply andb_true_iff in Ho as [O1 O2].
    apply Z.eqb_eq in H1. rewrite H1 in *. inversion Hl as [|? ? Hl1 Hl2]; subst. destruct (decode b k 0 (f_kind f)) as [v|y] eqn:Hd; [|discriminate].
    destruct (decode_local _ _ _ _ _ Hk O1 Hl1 Hd) as [F1 _]. eapply fits_mono; [|exact F1].
    unfold kind_ok in O1. apply andb_true_iff in O1 as [O1 _]. apply andb_true_iff in O1 as [_ O1]. lia. }
  destruct (fields_local fs Hl 0 b k a Ht Ho Hk Hf E) as [F1 F2]. rewrite Hw in *. split; [exact F1|].
  intros b' e He Ha. rewrite (F2 b' e He Ha). reflexivity.
Qed.

Ltac kindslocal := repeat first
  [ apply Forall_nil
  | apply Forall_cons
  | match goal with
    | |- kinds_local _ => unfold kinds_local
    | |- Forall _ (_ ++ _) => apply Forall_app; split
    | |- Forall _ (if ?c then _ else _) => destruct c
    | |- kind_local (f_kind (F _ _ ?K)) => change (kind_local K)
    | |- kind_local (KSub _ (object _ ?fs)) => apply kind_local_sub; [reflexivity|unfold fs|reflexivity|discriminate]
    | |- kind_local _ => exact I
    end ].

(** * Position independence *)
Definition shifted {A} (p : bytes) (r : res (A * Z)) : res (A * Z) := rmap (fun x => (fst x, blen p + snd x)) r.
Definition shifts (f : decoder) : Prop := forall p b k, 0 <= k -> f (p ++ b) (blen p + k) = shifted p (f b k).

Lemma blen_app (p b : bytes) : blen (p ++ b) = blen p + blen b.
Proof. unfold blen. rewrite app_length. lia. Qed.
Lemma bit_shift p b i : 0 <= i -> bit (p ++ b) (8 * blen p + i) = bit b i.
Proof.
  intros Hi. unfold bit, blen. rewrite app_nth2 by lia. replace ((8 * Z.of_nat (List.length p) + i) mod 8) with (i mod 8) by lia.
  f_equal. f_equal. f_equal. lia.
Qed.
Lemma ubits_shift p b o w : 0 <= o -> ubits (p ++ b) (8 * blen p + o) w = ubits b o w.
Proof.
  intros Ho. Transparent ubits. unfold ubits. Opaque ubits. induction (Z.to_nat w) as [|n IH]; [reflexivity|].
  cbn [ubits_n]. rewrite IH. rewrite <- Z.add_assoc, bit_shift by lia. reflexivity.
Qed.
Lemma slice_shift p b k n : 0 <= k -> slice (p ++ b) (blen p + k) n = slice b k n.
Proof.
  intros Hk. Transparent slice. unfold slice. Opaque slice. f_equal. unfold blen. rewrite skipn_app, skipn_all2 by lia. cbn [app]. f_equal. lia.
Qed.
Lemma fits_shift p b k c : fits (p ++ b) (blen p + k) c = fits b k c.
Proof. apply eq_true_iff_eq. rewrite !fits_iff, blen_app. lia. Qed.

Definition kind_shifts (K : kind) : Prop :=
  match K with KSub _ f => forall p b k, 0 <= k -> f (p ++ b) (blen p + k) = f b k | _ => True end.
Lemma decode_shift p b k c K : 0 <= k -> 0 <= c -> kind_shifts K -> decode (p ++ b) (blen p + k) c K = decode b k c K.
Proof.
  intros Hk Hc HK. unfold decode.
  assert (H1 : forall w, ubits (p ++ b) (8 * (blen p + k) + c) w = ubits b (8 * k + c) w).
  { intros w. replace (8 * (blen p + k) + c) with (8 * blen p + (8 * k + c)) by lia. apply ubits_shift. lia. }
  assert (H2 : forall n, slice (p ++ b) (blen p + k + c / 8) n = slice b (k + c / 8) n).
  { intros n. rewrite <- Z.add_assoc. apply slice_shift. lia. }
  assert (H3 : bit (p ++ b) (8 * (blen p + k) + c) = bit b (8 * k + c)).
  { replace (8 * (blen p + k) + c) with (8 * blen p + (8 * k + c)) by lia. apply bit_shift. lia. }
  destruct K as [f| |E f|n|en n|l path|w g]; rewrite ?fits_shift, ?H2, ?H3; try reflexivity.
  1,2: destruct f; cbn [num]; rewrite ?H1, ?H2; reflexivity.
  cbn in HK. rewrite <- Z.add_assoc. apply HK. lia.
Qed.
Definition kinds_shift (fs : list field) : Prop := Forall (fun f => 0 <= f_off f /\ kind_shifts (f_kind f)) fs.
Lemma fields_shift p b k fs : 0 <= k -> kinds_shift fs -> fields (p ++ b) (blen p + k) fs = fields b k fs.
Proof. intros Hk. induction 1 as [|f fs [Hc Hf] Hfs IH]; cbn [fields]; [reflexivity|]. rewrite decode_shift by assumption. rewrite IH. reflexivity. Qed.
Lemma kind_shifts_sub w cls fs : kinds_shift fs -> kind_shifts (KSub w (object cls fs)).
Proof. intros H p b k Hk. unfold object. rewrite fields_shift by assumption. reflexivity. Qed.
Ltac kindsshift := repeat first
  [ apply Forall_nil
  | apply Forall_cons
  | match goal with
    | |- kinds_shift _ => unfold kinds_shift
    | |- Forall _ (_ ++ _) => apply Forall_app; split
    | |- Forall _ (if ?c then _ else _) => destruct c
    | |- 0 <= f_off _ /\ _ => split; [cbn [f_off]; lia|]
    | |- kind_shifts (f_kind (F _ _ ?K)) => change (kind_shifts K)
    | |- kind_shifts (KSub _ (object _ ?fs)) => apply kind_shifts_sub; unfold fs
    | |- kind_shifts _ => exact I
    end ].

Lemma shifts_table cls fs : kinds_shift fs -> shifts (table cls fs).
Proof. intros H p b k Hk. unfold table. rewrite fields_shift by assumption. destruct (fields b k fs); [|reflexivity]. cbn. rewrite Z.add_assoc. reflexivity. Qed.
Lemma bytes_at_shift p b k n : 0 <= k -> bytes_at (p ++ b) (blen p + k) n = bytes_at b k n.
Proof.
  intros Hk. unfold bytes_at. rewrite slice_shift by assumption. rewrite blen_app.
  destruct (n <? 0); [reflexivity|]. destruct (Z.leb_spec (blen p + k + n) (blen p + blen b)), (Z.leb_spec (k + n) (blen b)); (reflexivity || lia).
Qed.
Lemma text_at_shift en p b k n : 0 <= k -> text_at en (p ++ b) (blen p + k) n = text_at en b k n.
Proof. intros Hk. unfold text_at. rewrite bytes_at_shift by assumption. reflexivity. Qed.
Lemma part_shift n f p b k : 0 <= k -> (forall g, f = Some g -> shifts g) -> part n f (p ++ b) (blen p + k) = shifted p (part n f b k).
Proof.
  intros Hk Hf. destruct f as [g|]; cbn [part]; [|reflexivity]. rewrite (Hf g eq_refl p b k Hk). destruct (g b k) as [[v e]|y]; reflexivity.
Qed.
Lemma select_shifts z t : Forall (fun zf => shifts (snd zf)) t -> forall g, select z t = Some g -> shifts g.
Proof.
  induction 1 as [|[c f] t Hf Ht IH]; cbn [select]; [discriminate|]. intros g. destruct (z =? c); [|apply IH]. intros E. assert (f = g) as <- by congruence. exact Hf.
Qed.

(** * Exceptions *)
(** the documented ones *)
Definition parse_error (e : exn) : bool :=
  match e with EOFError | ValidationNotEqualError _ _ _ | UnicodeDecodeError _ | ValueError => true | _ => false end.
Definition sane {A} (r : res A) : Prop := match r with Ok _ => True | Err e => parse_error e = true end.
Definition kind_sane (K : kind) : Prop := match K with KSub _ f => forall b k, sane (f b k) | _ => True end.
Lemma decode_sane b k c K : kind_sane K -> sane (decode b k c K).
Proof.
  intros H. unfold decode. destruct K as [f| |E f|n|en n|l path|w g]; [..|apply H].
  all: destruct (fits b k _); [|reflexivity]; cbv zeta; try exact I.
  - destruct (decode_text en _); [exact I|reflexivity].
  - destruct (bytes_eqb _ _); [exact I|reflexivity].
Qed.
Definition kinds_sane (fs : list field) : Prop := Forall (fun f => kind_sane (f_kind f)) fs.
Lemma fields_sane b k fs : kinds_sane fs -> sane (fields b k fs).
Proof.
  induction 1 as [|f fs Hf Hfs IH]; cbn [fields]; [exact I|]. pose proof (decode_sane b k (f_off f) _ Hf) as H.
  destruct (decode b k (f_off f) (f_kind f)); [|exact H]. destruct (fields b k fs); [exact I|exact IH].
Qed.
Lemma sane_bind {A B} (r : res A) (g : A -> res B) : sane r -> (forall a, r = Ok a -> sane (g a)) -> sane (rbind r g).
Proof. destruct r; cbn; auto. Qed.
Lemma sane_map {A B} (r : res A) (g : A -> B) : sane r -> sane (rmap g r).
Proof. destruct r; cbn; auto. Qed.
Lemma kind_sane_sub w cls fs : kinds_sane fs -> kind_sane (KSub w (object cls fs)).
Proof. intros H b k. unfold object. apply sane_map, fields_sane, H. Qed.
Ltac kindssane := repeat first
  [ apply Forall_nil
  | apply Forall_cons
  | match goal with
    | |- kinds_sane _ => unfold kinds_sane
    | |- Forall _ (_ ++ _) => apply Forall_app; split
    | |- Forall _ (if ?c then _ else _) => destruct c
    | |- kind_sane (f_kind (F _ _ ?K)) => change (kind_sane K)
    | |- kind_sane (KSub _ (object _ ?fs)) => apply kind_sane_sub; unfold fs
    | |- kind_sane _ => exact I
    end ].
Definition saned (f : decoder) : Prop := forall b k, sane (f b k).
Lemma saned_table cls fs : kinds_sane fs -> saned (table cls fs).
Proof. intros H b k. unfold table. apply sane_bind; [apply fields_sane, H|intros; exact I]. Qed.
Lemma bytes_at_sane b p n : sane (bytes_at b p n).
Proof. unfold bytes_at. destruct (n <? 0); [reflexivity|]. destruct (_ <=? _); [exact I|reflexivity]. Qed.
Lemma text_at_sane en b p n : sane (text_at en b p n).
Proof. unfold text_at. apply sane_bind; [apply bytes_at_sane|]. intros a _. destruct (decode_text en a); [exact I|reflexivity]. Qed.
Lemma part_sane n f b k : (forall g, f = Some g -> saned g) -> sane (part n f b k).
Proof. destruct f as [g|]; cbn [part]; [|intros; exact I]. intros H. apply sane_bind; [apply (H g eq_refl)|intros; exact I]. Qed.
Lemma select_saned z t : Forall (fun zf => saned (snd zf)) t -> forall g, select z t = Some g -> saned g.
Proof.
  induction 1 as [|[c f] t Hf Ht IH]; cbn [select]; [discriminate|]. intros g. destruct (z =? c); [|apply IH]. intros E. assert (f = g) as <- by congruence. exact Hf.
Qed.
