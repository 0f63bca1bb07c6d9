(** Proof rules for running a parser against a [decoder]. *)
From Verif Require Import PyBase Runtime Codec CodecSpec CodecProofs Spec DecSpec RuntimeProofs Enums EnumProofs.
From Coq Require Import ZifyBool.
Ltac Zify.zify_post_hook ::= Z.div_mod_to_equations.
Open Scope string_scope.
Open Scope list_scope.
Open Scope Z_scope.

(** The run [x] has the outcome [r] and, if successful, ends between byte [lo] and the end of [b]. *)
Definition agrees {A} (b : bytes) (lo : Z) (x : res (A * stream)) (r : res (A * Z)) : Prop :=
  match r with
  | Ok (v, e) => x = Ok (v, at_ b e 0) /\ lo <= e <= blen b
  | Err y => x = Err y
  end.

(** [m] started at byte [k] decodes what [f] says and stops where [f] says. *)
Definition runs_dec (m : M pyval) (f : decoder) : Prop := forall b k, 0 <= k <= blen b ->
  agrees b k (runM m (at_ b k 0)) (f b k).

Lemma agrees_lower {A} b lo lo' (x : res (A * stream)) r : lo' <= lo -> agrees b lo x r -> agrees b lo' x r.
Proof. unfold agrees. destruct r as [[v e]|y]; [|auto]. intros ? [? ?]. split; [assumption|lia]. Qed.

Lemma runs_dec_from_bytes m f : runs_dec m f -> forall b, from_bytes m b = stand_alone f b.
Proof.
  intros H b. rewrite from_bytes_runM, at_init. pose proof (blen_nonneg b).
  specialize (H b 0 ltac:(lia)). unfold agrees, stand_alone in *.
  destruct (f b 0) as [[v e]|y]; [destruct H as [-> _]|rewrite H]; reflexivity.
Qed.

Lemma fits_le b k c : 0 <= c -> fits b k c = true -> k + c / 8 <= blen b.
Proof. intros Hc H. apply fits_iff in H. lia. Qed.

Lemma fits_start b k : k <= blen b -> fits b k 0 = true.
Proof. intros. apply fits_iff. lia. Qed.

(** a class given by a table *)
Lemma dec_table m w cls fs : runs_at m 0 (KSub w (object cls fs)) -> fs_end fs 0 = w -> 0 <= w -> w mod 8 = 0 ->
  runs_dec m (table cls fs).
Proof.
  intros H Hw H0 H8 b k Hk. destruct (H b k ltac:(lia) ltac:(left; reflexivity)) as [E1 E2].
  rewrite E1. cbn [decode kwidth] in *. change (0 / 8) with 0 in *. rewrite Z.add_0_r, Z.add_0_l in *.
  unfold table, object in *. destruct (fields b k fs) as [a|y]; [|reflexivity].
  cbn [rmap rbind] in *. specialize (E2 _ eq_refl). rewrite Hw. split.
  - rewrite at_aligned by assumption. reflexivity.
  - pose proof (fits_le b k w H0 E2). lia.
Qed.

Section Steps.
Context {R : Type} (b : bytes) (lo kk : Z).

(** one field *)
Lemma fld_any m K n c fs (G : attrs -> res (R * Z)) (X : pyval -> M R) : runs_at m c K -> 0 <= kk -> (c mod 8 = 0 \/ fits b kk c = true) ->
  (forall v, decode b kk c K = Ok v -> fits b kk (c + kwidth K) = true ->
     agrees b lo (runM (X v) (at_ b kk (c + kwidth K))) (rbind (fields b kk fs) (fun a => G ((n, v) :: a)))) ->
  agrees b lo (runM (bind m X) (at_ b kk c)) (rbind (fields b kk (F n c K :: fs)) G).
Proof.
  intros H Hk Hc HX. rewrite runM_bind. destruct (H b kk Hk Hc) as [E1 E2]. rewrite E1.
  cbn [fields f_off f_kind f_name]. destruct (decode b kk c K) as [v|y]; [|reflexivity].
  specialize (HX v eq_refl (E2 v eq_refl)). cbv iota beta. destruct (fields b kk fs) as [a|y]; exact HX.
Qed.

Lemma fld_enum m E f n c fs (G : attrs -> res (R * Z)) (X : pyval -> M R) : runs_at (venum E m) c (KEnum E f) -> 0 <= kk -> (c mod 8 = 0 \/ fits b kk c = true) ->
  (fits b kk (c + nwidth f) = true ->
     agrees b lo (runM (X (resolve_enum E (num b kk c f))) (at_ b kk (c + nwidth f)))
       (rbind (fields b kk fs) (fun a => G ((n, resolve_enum E (num b kk c f)) :: a)))) ->
  agrees b lo (runM (bind (venum E m) X) (at_ b kk c)) (rbind (fields b kk (F n c (KEnum E f) :: fs)) G).
Proof.
  intros H Hk Hc HX. eapply fld_any; [exact H|assumption|assumption|].
  intros v Hd Hf. cbn [decode kwidth] in Hd. cbn [kwidth] in *. rewrite Hf in Hd. injection Hd as <-. auto.
Qed.

Lemma fld_num (m : M Z) f n c fs (G : attrs -> res (R * Z)) (X : Z -> M R) : runs_at (vint m) c (KNum f) -> 0 <= kk -> (c mod 8 = 0 \/ fits b kk c = true) ->
  (fits b kk (c + nwidth f) = true ->
     agrees b lo (runM (X (num b kk c f)) (at_ b kk (c + nwidth f)))
       (rbind (fields b kk fs) (fun a => G ((n, VInt (num b kk c f)) :: a)))) ->
  agrees b lo (runM (bind m X) (at_ b kk c)) (rbind (fields b kk (F n c (KNum f) :: fs)) G).
Proof.
  intros H Hk Hc HX. rewrite runM_bind. destruct (H b kk Hk Hc) as [E1 E2].
  unfold vint in E1. rewrite runM_bind in E1. cbn [fields f_off f_kind f_name decode kwidth] in *.
  destruct (fits b kk (c + nwidth f)) eqn:Hf; cbv iota in E1 |- *.
  - specialize (HX eq_refl).
    destruct (runM m (at_ b kk c)) as [[x s]|y]; [|discriminate]. rewrite runM_ret in E1.
    assert (Ex : x = num b kk c f) by congruence. assert (Es : s = at_ b kk (c + nwidth f)) by congruence.
    subst x s. destruct (fields b kk fs) as [a|y]; exact HX.
  - destruct (runM m (at_ b kk c)) as [[x s]|y]; [rewrite runM_ret in E1; discriminate|].
    assert (y = EOFError) by congruence. subst y. reflexivity.
Qed.

Lemma fld_flag n c fs (G : attrs -> res (R * Z)) (X : bool -> M R) : 0 <= kk -> 0 <= c -> (c mod 8 = 0 \/ fits b kk c = true) ->
  (fits b kk (c + 1) = true ->
     agrees b lo (runM (X (bit b (8 * kk + c))) (at_ b kk (c + 1)))
       (rbind (fields b kk fs) (fun a => G ((n, VBool (bit b (8 * kk + c))) :: a)))) ->
  agrees b lo (runM (bind read_flag X) (at_ b kk c)) (rbind (fields b kk (F n c KFlag :: fs)) G).
Proof.
  intros Hk H0 Hc HX. rewrite runM_bind, run_read_flag by assumption.
  cbn [fields f_off f_kind f_name decode kwidth] in *.
  destruct (fits b kk (c + 1)) eqn:Hf; cbv iota; [|reflexivity].
  specialize (HX eq_refl). destruct (fields b kk fs) as [a|y]; exact HX.
Qed.

Lemma fld_bytes rt k n c fs (G : attrs -> res (R * Z)) (X : bytes -> M R) : 0 <= kk -> 0 <= c -> c mod 8 = 0 -> 0 < k ->
  (fits b kk (c + 8 * k) = true ->
     agrees b lo (runM (X (slice b (kk + c / 8) k)) (at_ b kk (c + 8 * k)))
       (rbind (fields b kk fs) (fun a => G ((n, VBytes (slice b (kk + c / 8) k)) :: a)))) ->
  agrees b lo (runM (bind (read_bytes rt k) X) (at_ b kk c)) (rbind (fields b kk (F n c (KBytes k) :: fs)) G).
Proof.
  intros Hk H0 Hc H1 HX. rewrite runM_bind, run_read_bytes by assumption.
  cbn [fields f_off f_kind f_name decode kwidth] in *.
  destruct (fits b kk (c + 8 * k)) eqn:Hf; cbv iota; [|reflexivity].
  specialize (HX eq_refl). destruct (fields b kk fs) as [a|y]; exact HX.
Qed.

(** several fields read by [seq] *)
Lemma fld_seq l fs (G : attrs -> res (R * Z)) (X : attrs -> M R) : seq_ok 0 l fs -> 0 <= kk <= blen b -> 
  (forall a, fields b kk fs = Ok a -> fits b kk (fs_end fs 0) = true ->
     agrees b lo (runM (X a) (at_ b kk (fs_end fs 0))) (G a)) ->
  agrees b lo (runM (bind (seq l) X) (at_ b kk 0)) (rbind (fields b kk fs) G).
Proof.
  intros H Hk HX. rewrite runM_bind.
  destruct (run_seq l fs 0 H b kk ltac:(lia) ltac:(left; reflexivity)) as [E1 E2]. rewrite E1.
  destruct (fields b kk fs) as [a|y] eqn:Ef; [|reflexivity].
  cbn [rbind]. apply HX; [reflexivity|].
  destruct (E2 a eq_refl) as [E3|E3]; [|assumption].
  subst fs. cbn. apply fits_start. lia.
Qed.

(** end of a table *)
Lemma fld_nil (G : attrs -> res (R * Z)) x : agrees b lo x (G []) -> agrees b lo x (rbind (fields b kk []) G).
Proof. auto. Qed.

(** an embedded message *)
Lemma step_dec m f p (X : pyval -> M R) (G : pyval * Z -> res (R * Z)) : runs_dec m f -> 0 <= p <= blen b ->
  (forall v e, f b p = Ok (v, e) -> p <= e <= blen b -> agrees b lo (runM (X v) (at_ b e 0)) (G (v, e))) ->
  agrees b lo (runM (bind m X) (at_ b p 0)) (rbind (f b p) G).
Proof.
  intros H Hp HX. rewrite runM_bind. specialize (H b p Hp). unfold agrees in H.
  destruct (f b p) as [[v e]|y]; [|rewrite H; reflexivity].
  destruct H as [-> He]. cbn [rbind]. apply HX; auto.
Qed.

Lemma step_part m f n p (X : option pyval -> M R) (G : attrs * Z -> res (R * Z)) : runs_dec m f -> 0 <= p <= blen b ->
  (forall v e, f b p = Ok (v, e) -> p <= e <= blen b -> agrees b lo (runM (X (Some v)) (at_ b e 0)) (G ([(n, v)], e))) ->
  agrees b lo (runM (bind (some m) X) (at_ b p 0)) (rbind (part n (Some f) b p) G).
Proof.
  intros H Hp HX. unfold some. rewrite step_assoc. unfold part.
  rewrite runM_bind. specialize (H b p Hp). unfold agrees in H.
  destruct (f b p) as [[v e]|y]; [|rewrite H; reflexivity].
  destruct H as [-> He]. cbn [rbind fst snd]. rewrite step_ret. apply HX; auto.
Qed.

Lemma step_nopart n p (X : option pyval -> M R) (G : attrs * Z -> res (R * Z)) :
  agrees b lo (runM (X None) (at_ b p 0)) (G ([], p)) ->
  agrees b lo (runM (bind none X) (at_ b p 0)) (rbind (part n None b p) G).
Proof. auto. Qed.

(** a length found in the packet *)
Lemma step_bytes rt n p (X : bytes -> M R) (G : bytes -> res (R * Z)) : 0 <= p <= blen b ->
  (0 <= n -> p + n <= blen b -> agrees b lo (runM (X (slice b p n)) (at_ b (p + n) 0)) (G (slice b p n))) ->
  agrees b lo (runM (bind (read_bytes rt n) X) (at_ b p 0)) (rbind (bytes_at b p n) G).
Proof.
  intros Hp HX. rewrite runM_bind, run_read_bytes_var by (lia || (left; apply fits_start; lia)).
  change (0 / 8) with 0. rewrite Z.add_0_r. unfold bytes_at.
  destruct (Z.ltb_spec n 0); [reflexivity|].
  destruct (Z.leb_spec (p + n) (blen b)); [|reflexivity].
  cbn [rbind]. auto.
Qed.

Lemma step_text rt e n p (X : pystr -> M R) (G : pyval -> res (R * Z)) : 0 <= p <= blen b ->
  (forall s, 0 <= n -> p + n <= blen b -> decode_text e (slice b p n) = Some s -> agrees b lo (runM (X s) (at_ b (p + n) 0)) (G (VStr s))) ->
  agrees b lo (runM (bind (read_str rt e n) X) (at_ b p 0)) (rbind (text_at e b p n) G).
Proof.
  intros Hp HX. unfold read_str, text_at. rewrite step_assoc.
  replace (rbind (rbind (bytes_at b p n) (fun x => match decode_text e x with Some s => Ok (VStr s) | None => Err (UnicodeDecodeError (enc_name e)) end)) G)
    with (rbind (bytes_at b p n) (fun x => rbind (match decode_text e x with Some s => Ok (VStr s) | None => Err (UnicodeDecodeError (enc_name e)) end) G))
    by (destruct (bytes_at b p n); reflexivity).
  apply step_bytes; [assumption|]. intros H1 H2. rewrite step_lift. unfold py_decode.
  destruct (decode_text e _) as [s|] eqn:Hs; [|reflexivity]. cbn [rbind]. now apply HX.
Qed.
Lemma step_vstr rt e n p (X : pyval -> M R) (G : pyval -> res (R * Z)) : 0 <= p <= blen b ->
  (forall s, 0 <= n -> p + n <= blen b -> decode_text e (slice b p n) = Some s -> agrees b lo (runM (X (VStr s)) (at_ b (p + n) 0)) (G (VStr s))) ->
  agrees b lo (runM (bind (vstr rt e n) X) (at_ b p 0)) (rbind (text_at e b p n) G).
Proof. intros Hp HX. unfold vstr. rewrite step_assoc. apply step_text; [assumption|]. intros. rewrite step_ret. auto. Qed.

Lemma agrees_rbind_assoc {A B} (r : res A) (f : A -> res B) (g : B -> res (R * Z)) x :
  agrees b lo x (rbind r (fun a => rbind (f a) g)) -> agrees b lo x (rbind (rbind r f) g).
Proof. destruct r; auto. Qed.
End Steps.

(** leave the table: from bit [c] of base [kk] to byte [kk + c/8] *)
Lemma at_byte b kk c : c mod 8 = 0 -> at_ b kk c = at_ b (kk + c / 8) 0.
Proof. apply at_aligned. Qed.

Ltac fld_norm :=
  cbn [kwidth nwidth num];
  repeat match goal with |- context [blen (B ?l)] => let r := eval vm_compute in (blen (B l)) in change (blen (B l)) with r
                     | |- context [blen (blit ?l)] => let r := eval vm_compute in (blen (blit l)) in change (blen (blit l)) with r end;
  norm_lits; cbv beta.
Ltac fld1 :=
  lazymatch goal with
  | |- agrees _ _ (runM (bind (bind _ _) _) _) _ => rewrite step_assoc
  | |- agrees _ _ (runM (bind (ret _) _) _) _ => rewrite step_ret
  | |- agrees _ _ (runM (bind (some _) _) _) (rbind (fields _ _ _) _) => unfold some; rewrite step_assoc
  | |- agrees _ _ (runM (bind none _) _) (rbind (fields _ _ _) _) => unfold none; rewrite step_ret
  | |- agrees _ _ (runM (bind align_to_byte _) (at_ _ _ _)) _ => erewrite step_ok by (apply run_align; zside)
  | |- agrees _ _ (runM (bind read_flag _) (at_ _ _ _)) (rbind (fields _ _ (F _ _ _ :: _)) _) => apply fld_flag; [zside|zside|zside|fld_norm; intros ?]
  | |- agrees _ _ (runM (bind (read_bytes _ _) _) (at_ _ _ _)) (rbind (fields _ _ (F _ _ _ :: _)) _) => apply fld_bytes; [zside|zside|reflexivity|zside|fld_norm; intros ?]
  | |- agrees _ _ (runM (bind (venum _ _) _) (at_ _ _ _)) (rbind (fields _ _ (F _ _ _ :: _)) _) => apply fld_enum; [runs1|zside|zside|fld_norm; intros ?]
  | |- agrees _ _ (@runM _ (@bind Z _ _ _) (at_ _ _ _)) (rbind (fields _ _ (F _ _ _ :: _)) _) => apply fld_num; [first [runs1 | apply runs_bits; lia]|zside|zside|fld_norm; intros ?]
  | |- agrees _ _ (@runM _ (@bind pyval _ _ _) (at_ _ _ _)) (rbind (fields _ _ (F _ _ _ :: _)) _) => eapply fld_any; [runs1|zside|zside|fld_norm; intros ? ? ?]
  | |- agrees _ _ _ (rbind (fields _ _ []) _) => apply fld_nil
  end; cbv beta.
Ltac flds := repeat fld1.
