(** Strict decoding and lossless text. *)
From Verif Require Import PyBase Codec CodecSpec Spec RuntimeProofs.
From Coq Require Import ZifyBool Wf_nat.
Ltac Zify.zify_post_hook ::= Z.div_mod_to_equations.
Open Scope list_scope.
Open Scope Z_scope.

Lemma zb_eq z x : z = bz x -> zb z = x.
Proof. intros ->. apply zb_bz. Qed.

Lemma list_len_ind {A} (P : list A -> Prop) : (forall l, (forall l', (List.length l' < List.length l)%nat -> P l') -> P l) -> forall l, P l.
Proof. intros H. apply (induction_ltof1 _ (@List.length A)). exact H. Qed.

Ltac bzr := repeat match goal with |- context [bz ?x] => lazymatch goal with H : 0 <= bz x < 256 |- _ => fail | _ => pose proof (bz_range x) end | H' : context [bz ?x] |- _ => lazymatch goal with H : 0 <= bz x < 256 |- _ => fail | _ => pose proof (bz_range x) end end.

Lemma Some_eq {A} (x y : A) : Some x = Some y -> y = x.
Proof. congruence. Qed.

Ltac som := match goal with H : option_map _ ?o = Some _ |- _ => destruct o eqn:?; cbn [option_map] in H; [apply Some_eq in H; subst|discriminate] end.

(** ** decode, then encode *)
Lemma dec_enc_ascii l : forall s, dec_ascii l = Some s -> encode_text ASCII s = Some l.
Proof.
  induction l as [|x l IH]; cbn [dec_ascii]; intros s H; [injection H as <-; reflexivity|].
  destruct (Z.ltb_spec (bz x) 128); [|discriminate]. som.
  cbn [encode_text encode_cp]. rewrite (IH _ eq_refl). unfold enc_ascii_cp. bzr.
  destruct (Z.leb_spec 0 (bz x)); [|lia]. destruct (Z.ltb_spec (bz x) 128); [|lia].
  cbn. now rewrite zb_bz.
Qed.

Ltac zif := match goal with
  | |- context [if ?c then _ else _] => let E := fresh "E" in first [ assert (E : c = true) by (unfold surrogate; bzr; lia); rewrite E; clear E | assert (E : c = false) by (unfold surrogate; bzr; lia); rewrite E; clear E ]
  end.

Lemma dec_enc_utf8 l : forall s, dec_utf8 l = Some s -> encode_text UTF8 s = Some l.
Proof.
  induction l as [l IH] using list_len_ind. intros s H.
  destruct l as [|x l1]; [injection H as <-; reflexivity|]. cbn [dec_utf8] in H.
  destruct (Z.ltb_spec (bz x) 128).
  { som. cbn [encode_text encode_cp]. rewrite (IH l1) by (cbn; auto || lia).
    unfold enc_utf8_cp. do 2 zif. cbn. now rewrite zb_bz. }
  destruct (Z.ltb_spec (bz x) 194); [discriminate|].
  destruct l1 as [|y l2]; [discriminate|].
  destruct (cont y) eqn:Cy; cbn [negb] in H; [|discriminate]. unfold cont in Cy.
  destruct (Z.ltb_spec (bz x) 224).
  { som. cbn [encode_text encode_cp]. rewrite (IH l2) by (cbn; auto || lia).
    unfold enc_utf8_cp. do 3 zif. cbn [app]. do 3 f_equal; [|f_equal]; apply zb_eq; bzr; lia. }
  destruct l2 as [|z l3]; [discriminate|].
  destruct (cont z) eqn:Cz; cbn [negb] in H; [|discriminate]. unfold cont in Cz.
  destruct (Z.ltb_spec (bz x) 240).
  { cbv zeta in H. match type of H with (if ?c then _ else _) = _ => destruct c eqn:? end; [discriminate|].
    som. cbn [encode_text encode_cp]. rewrite (IH l3) by (cbn; auto || lia).
    unfold enc_utf8_cp. do 4 zif. cbn [app]. do 4 f_equal; [..|f_equal]; apply zb_eq; bzr; lia. }
  destruct l3 as [|t l4]; [discriminate|].
  destruct (cont t) eqn:Ct; cbn [negb] in H; [|discriminate]. unfold cont in Ct.
  destruct (Z.ltb_spec (bz x) 245); [|discriminate].
  cbv zeta in H. match type of H with (if ?c then _ else _) = _ => destruct c eqn:? end; [discriminate|].
  som. cbn [encode_text encode_cp]. rewrite (IH l4) by (cbn; auto || lia).
  unfold enc_utf8_cp. do 5 zif. cbn [app]. do 5 f_equal; [..|f_equal]; apply zb_eq; bzr; lia.
Qed.

(** code units *)
Fixpoint enc_units (s : pystr) : option (list Z) :=
  match s with
  | [] => Some []
  | c :: s' => match units_of c, enc_units s' with Some x, Some y => Some (x ++ y) | _, _ => None end
  end.

Definition isunit u := 0 <= u < 65536.

Lemma dec_enc_units l : Forall isunit l -> forall s, dec_units l = Some s -> enc_units s = Some l.
Proof.
  induction l as [l IH] using list_len_ind. intros Hu s H.
  destruct l as [|u l1]; [injection H as <-; reflexivity|]. cbn [dec_units] in H.
  inversion_clear Hu as [|? ? Hu0 Hu1]. unfold isunit in Hu0.
  destruct ((55296 <=? u) && (u <? 56320)) eqn:E1.
  - destruct l1 as [|v l2]; [discriminate|].
    destruct ((56320 <=? v) && (v <? 57344)) eqn:E2; [|discriminate]. som.
    inversion_clear Hu1 as [|? ? Hv0 Hv1].
    cbn [enc_units]. rewrite (IH l2) by (cbn; auto || lia). unfold units_of.
    do 3 zif. cbn [app]. do 3 f_equal; [|f_equal]; lia.
  - destruct ((56320 <=? u) && (u <? 57344)) eqn:E2; [discriminate|]. som.
    cbn [enc_units]. rewrite (IH l1) by (cbn; auto || lia). unfold units_of. do 2 zif. reflexivity.
Qed.

Lemma units_le_ok l : forall u, units_le l = Some u -> Forall isunit u /\ flat_map unit_le u = l.
Proof.
  induction l as [l IH] using list_len_ind. intros u H.
  destruct l as [|x [|y l]]; cbn [units_le] in H; [injection H as <-; now split|discriminate|]. som.
  destruct (IH l ltac:(cbn; lia) _ Heqo) as [H1 H2]. split.
  - constructor; [|assumption]. unfold isunit. bzr. lia.
  - cbn [flat_map]. rewrite H2. unfold unit_le. cbn [app]. f_equal; [|f_equal]; apply zb_eq; bzr; lia.
Qed.
Lemma units_be_ok l : forall u, units_be l = Some u -> Forall isunit u /\ flat_map unit_be u = l.
Proof.
  induction l as [l IH] using list_len_ind. intros u H.
  destruct l as [|x [|y l]]; cbn [units_be] in H; [injection H as <-; now split|discriminate|]. som.
  destruct (IH l ltac:(cbn; lia) _ Heqo) as [H1 H2]. split.
  - constructor; [|assumption]. unfold isunit. bzr. lia.
  - cbn [flat_map]. rewrite H2. unfold unit_be. cbn [app]. f_equal; [|f_equal]; apply zb_eq; bzr; lia.
Qed.

Lemma enc16_units (f : Z -> bytes) (E : encoding) s :
  (forall c, encode_cp E c = option_map (flat_map f) (units_of c)) ->
  encode_text E s = option_map (flat_map f) (enc_units s).
Proof.
  intros HE. induction s as [|c s IH]; [reflexivity|]. cbn [encode_text enc_units].
  rewrite HE, IH. destruct (units_of c); [|reflexivity]. cbn [option_map].
  destruct (enc_units s); [|reflexivity]. cbn [option_map]. now rewrite flat_map_app.
Qed.

Theorem decode_encode e l s : decode_text e l = Some s -> encode_text e s = Some l.
Proof.
  destruct e; cbn [decode_text].
  - apply dec_enc_ascii.
  - apply dec_enc_utf8.
  - unfold dec_utf16le. destruct (units_le l) as [u|] eqn:Hu; [|discriminate]. intros H.
    destruct (units_le_ok _ _ Hu) as [H1 H2].
    rewrite (enc16_units unit_le) by reflexivity. rewrite (dec_enc_units u H1 s H). cbn. now rewrite H2.
  - unfold dec_utf16be. destruct (units_be l) as [u|] eqn:Hu; [|discriminate]. intros H.
    destruct (units_be_ok _ _ Hu) as [H1 H2].
    rewrite (enc16_units unit_be) by reflexivity. rewrite (dec_enc_units u H1 s H). cbn. now rewrite H2.
Qed.

(** ** encode, then decode *)
Ltac et := match goal with H : match ?o with Some _ => _ | None => _ end = Some _ |- _ => destruct o eqn:?; [|discriminate] end.

Lemma enc_dec_ascii s : forall l, encode_text ASCII s = Some l -> dec_ascii l = Some s.
Proof.
  induction s as [|c s IH]; cbn [encode_text encode_cp]; intros l H; [injection H as <-; reflexivity|].
  unfold enc_ascii_cp in H. destruct ((0 <=? c) && (c <? 128)) eqn:E; [|discriminate].
  et. injection H as <-. cbn [app dec_ascii]. rewrite bz_zb by lia. zif. now rewrite (IH _ eq_refl).
Qed.

Lemma enc_dec_utf8 s : forall l, encode_text UTF8 s = Some l -> dec_utf8 l = Some s.
Proof.
  induction s as [|c s IH]; cbn [encode_text encode_cp]; intros l H; [injection H as <-; reflexivity|].
  unfold enc_utf8_cp in H. unfold surrogate in H.
  repeat match type of H with context [if ?b then _ else _] => destruct b eqn:?; try discriminate end;
  et; apply Some_eq in H; subst l; cbn [app dec_utf8]; specialize (IH _ eq_refl); unfold cont; rewrite !bz_zb by lia.
  - zif. now rewrite IH.
  - do 4 zif. rewrite IH. cbn [option_map]. do 2 f_equal. lia.
  - do 6 zif. cbv zeta; try zif. rewrite IH. cbn [option_map]. do 2 f_equal. lia.
  - do 8 zif. cbv zeta; try zif. rewrite IH. cbn [option_map]. do 2 f_equal. lia.
Qed.

Lemma enc_dec_units s : forall l, enc_units s = Some l -> dec_units l = Some s /\ Forall isunit l.
Proof.
  induction s as [|c s IH]; cbn [enc_units]; intros l H; [injection H as <-; split; constructor|].
  unfold units_of, surrogate in H.
  repeat match type of H with context [if ?b then _ else _] => destruct b eqn:?; try discriminate end;
  et; apply Some_eq in H; subst l; cbn [app dec_units]; destruct (IH _ eq_refl) as [H1 H2].
  - split; [do 2 zif; now rewrite H1|]. constructor; [unfold isunit; lia|assumption].
  - split; [do 2 zif; rewrite H1; cbn [option_map]; do 2 f_equal; lia|]. do 2 (constructor; [unfold isunit; lia|]). assumption.
Qed.

Lemma units_le_of u : Forall isunit u -> units_le (flat_map unit_le u) = Some u.
Proof.
  induction 1 as [|x u Hx Hu IH]; [reflexivity|]. cbn [flat_map unit_le app units_le]. rewrite IH. cbn [option_map].
  unfold isunit in Hx. rewrite !bz_zb by lia. do 2 f_equal. lia.
Qed.
Lemma units_be_of u : Forall isunit u -> units_be (flat_map unit_be u) = Some u.
Proof.
  induction 1 as [|x u Hx Hu IH]; [reflexivity|]. cbn [flat_map unit_be app units_be]. rewrite IH. cbn [option_map].
  unfold isunit in Hx. rewrite !bz_zb by lia. do 2 f_equal. lia.
Qed.

Theorem encode_decode e s l : encode_text e s = Some l -> decode_text e l = Some s.
Proof.
  destruct e; cbn [decode_text].
  - apply enc_dec_ascii.
  - apply enc_dec_utf8.
  - rewrite (enc16_units unit_le) by reflexivity. intros H. destruct (enc_units s) as [u|] eqn:E; [|discriminate].
    injection H as <-. destruct (enc_dec_units _ _ E) as [H1 H2]. unfold dec_utf16le. now rewrite units_le_of.
  - rewrite (enc16_units unit_be) by reflexivity. intros H. destruct (enc_units s) as [u|] eqn:E; [|discriminate].
    injection H as <-. destruct (enc_dec_units _ _ E) as [H1 H2]. unfold dec_utf16be. now rewrite units_be_of.
Qed.

(** every Unicode string can be encoded in the Unicode encodings *)
Lemma units_scalar c : scalar c = true -> exists u, units_of c = Some u.
Proof. unfold scalar, units_of, surrogate. intros H. destruct (c <? 65536) eqn:?; [do 1 zif; eauto|do 2 zif; eauto]. Qed.
Lemma encode_total e s : e <> ASCII -> forallb scalar s = true -> exists l, encode_text e s = Some l.
Proof.
  intros He. induction s as [|c s IH]; [eexists; reflexivity|]. cbn [forallb]. intros H.
  apply andb_true_iff in H as [H1 H2]. destruct (IH H2) as [l Hl]. cbn [encode_text]. rewrite Hl.
  assert (Hc : exists x, encode_cp e c = Some x).
  { destruct e; cbn [encode_cp]; [congruence| |destruct (units_scalar _ H1) as [u ->]; cbn; eauto ..].
    unfold scalar, surrogate in H1. unfold enc_utf8_cp. zif.
    repeat match goal with |- context [if ?b then _ else _] => destruct b eqn:?; eauto end. exfalso. lia. }
  destruct Hc as [x ->]. eauto.
Qed.
Lemma encode_total_ascii s : forallb (fun c => (0 <=? c) && (c <? 128)) s = true -> exists l, encode_text ASCII s = Some l.
Proof.
  induction s as [|c s IH]; [eexists; reflexivity|]. cbn [forallb]. intros H.
  apply andb_true_iff in H as [H1 H2]. destruct (IH H2) as [l Hl]. cbn [encode_text]. rewrite Hl.
  cbn [encode_cp]. unfold enc_ascii_cp. rewrite H1. eauto.
Qed.

(** decoded text is well-formed *)
Lemma decode_scalar e l s : decode_text e l = Some s -> forallb scalar s = true.
Proof.
  intros H. apply decode_encode in H. revert l H.
  induction s as [|c s IH]; [reflexivity|]. intros l H. cbn [encode_text] in H.
  destruct (encode_cp e c) eqn:Ec; [|discriminate]. destruct (encode_text e s) eqn:Es; [|discriminate].
  cbn [forallb]. rewrite (IH _ eq_refl), andb_true_r.
  destruct e; cbn [encode_cp] in Ec; unfold enc_ascii_cp, enc_utf8_cp, units_of, surrogate in Ec; unfold scalar, surrogate;
  repeat match type of Ec with context [if ?b then _ else _] => destruct b eqn:?; try discriminate end; lia.
Qed.

(** ** comparison of decoded text with an ASCII literal *)
Lemma zlist_eqb_eq a b : zlist_eqb a b = true <-> a = b.
Proof.
  revert b. induction a as [|x a IH]; intros [|y b]; cbn; split; try congruence; try easy.
  - intros H. apply andb_true_iff in H as [H1 H2]. apply Z.eqb_eq in H1. apply IH in H2. congruence.
  - injection 1 as -> ->. rewrite Z.eqb_refl. now apply IH.
Qed.

Fixpoint ascii_lit (s : string) : bool :=
  match s with EmptyString => true | String c s' => (Z.of_N (N_of_ascii c) <? 128) && ascii_lit s' end.

Lemma encode_lit e t : e = ASCII \/ e = UTF8 -> ascii_lit t = true -> encode_text e (lit t) = Some (blit t).
Proof.
  intros He. induction t as [|c t IH]; [reflexivity|]. cbn [ascii_lit lit encode_text blit]. intros H.
  apply andb_true_iff in H as [H1 H2]. rewrite (IH H2).
  assert (Hc : encode_cp e (Z.of_N (N_of_ascii c)) = Some [byte_of_ascii c]).
  { clear IH H2. destruct He as [-> | ->]; destruct c as [[] [] [] [] [] [] [] []]; try discriminate H1; reflexivity. }
  now rewrite Hc.
Qed.

Lemma str_eqb_bytes e x s t : e = ASCII \/ e = UTF8 -> ascii_lit t = true ->
  decode_text e x = Some s -> str_eqb s t = bytes_eqb x (blit t).
Proof.
  intros He Ht H. unfold str_eqb. destruct (bytes_eqb x (blit t)) eqn:E.
  - apply bytes_eqb_true in E. subst x. rewrite (encode_decode _ _ _ (encode_lit e t He Ht)) in H.
    injection H as <-. now apply zlist_eqb_eq.
  - destruct (zlist_eqb s (lit t)) eqn:E2; [|reflexivity]. exfalso. apply zlist_eqb_eq in E2. subst s.
    apply decode_encode in H. rewrite (encode_lit e t He Ht) in H. injection H as <-.
    rewrite bytes_eqb_refl in E. discriminate.
Qed.

Lemma encode_roundtrip e s : e <> ASCII -> forallb scalar s = true -> exists l, encode_text e s = Some l /\ decode_text e l = Some s.
Proof. intros He Hs. destruct (encode_total e s He Hs) as [l Hl]. exists l. split; [exact Hl|now apply encode_decode]. Qed.
Lemma encode_roundtrip_ascii s : forallb (fun c => (0 <=? c) && (c <? 128)) s = true -> exists l, encode_text ASCII s = Some l /\ decode_text ASCII l = Some s.
Proof. intros Hs. destruct (encode_total_ascii s Hs) as [l Hl]. exists l. split; [exact Hl|now apply encode_decode]. Qed.
Lemma decode_strict e l : decode_text e l = None <-> (forall s, encode_text e s <> Some l).
Proof.
  split.
  - intros H s Hs. apply encode_decode in Hs. congruence.
  - intros H. destruct (decode_text e l) as [s|] eqn:E; [|reflexivity]. exfalso. apply (H s). now apply decode_encode.
Qed.
