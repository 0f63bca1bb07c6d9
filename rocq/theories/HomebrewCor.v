(** Consequences of the homebrew specifications, used for properties C15 - C19. *)
From Verif Require Import PyBase Runtime Codec CodecSpec CodecProofs Spec DecSpec BitSpec RuntimeProofs TilesProofs Enums EnumProofs EtsiCor Getters GetterProofs HomebrewModel HomebrewSpec HomebrewProofs.
From Coq Require Import ZifyBool.
Ltac Zify.zify_post_hook ::= Z.div_mod_to_equations.
Open Scope string_scope.
Open Scope list_scope.
Open Scope Z_scope.

(** ** slices *)
Lemma nth_slice b p n i : 0 <= p -> 0 <= i < n -> nth (Z.to_nat i) (slice b p n) Byte.x00 = nth (Z.to_nat (p + i)) b Byte.x00.
Proof.
  Transparent slice. intros Hp Hi. unfold slice. rewrite Z2Nat.inj_add by lia.
  assert (H : (Z.to_nat i < Z.to_nat n)%nat) by lia.
  revert H. generalize (Z.to_nat n) (Z.to_nat i) (Z.to_nat p). clear. intros n i p H.
  revert b. induction p as [|p IH]; intros b; cbn [Nat.add skipn].
  - revert i b H. induction n as [|n IH]; intros i b H; [lia|]. destruct b as [|x b]; cbn [firstn]; [destruct i; reflexivity|].
    destruct i; cbn [nth]; [reflexivity|]. apply IH. lia.
  - destruct b as [|x b]; cbn [nth]; [now rewrite firstn_nil; destruct i|]. apply IH.
Qed.
Opaque slice.

Lemma blen_slice b p n : 0 <= p -> 0 <= n -> p + n <= blen b -> blen (slice b p n) = n.
Proof. Transparent slice. intros. unfold slice, blen in *. rewrite firstn_length, skipn_length. lia. Qed.
Opaque slice.

(** a table of plain fields, given that it fits: the values, field by field *)
Ltac plain_fields :=
  spec_cbn;
  repeat match goal with |- context [fits ?b ?k ?c] => rewrite (proj2 (fits_iff b k c)) by lia end.

(** ** dispatch *)
Lemma find_notin p t : ~ In p (map (fun kv => blit (fst kv)) t) -> find_command p t = None.
Proof.
  intros H. apply find_none. apply forallb_forall. intros kv Hkv. apply negb_true_iff.
  destruct (bytes_eqb p (blit (fst kv))) eqn:E; [|reflexivity]. apply bytes_eqb_true in E. exfalso. apply H. rewrite E.
  apply in_map_iff. exists kv. auto.
Qed.

Lemma slice_blen b p n x : slice b p n = x -> 0 <= p -> 0 <= n -> blen x = n -> x <> [] -> p + n <= blen b.
Proof.
  Transparent slice. unfold slice, blen. intros H Hp Hn Hx Hne. subst x. rewrite firstn_length, skipn_length in Hx.
  destruct (Z_le_gt_dec (p + n) (Z.of_nat (List.length b))); [assumption|].
  assert (n = 0 \/ 0 < n) as [->|] by lia; [exfalso; apply Hne; reflexivity|]. lia.
Qed.
Opaque slice.

Lemma prefix_len b s : slice b 0 4 = blit s -> blen (blit s) = 4 -> 4 <= blen b.
Proof. intros H Hs. pose proof (slice_blen b 0 4 _ H ltac:(lia) ltac:(lia) Hs). destruct (blit s); [discriminate|]. apply H0. discriminate. Qed.

Lemma hb_dispatch b s f : slice b 0 4 = blit s -> blen (blit s) = 4 -> ascii_lit s = true -> find_command (blit s) Homebrew2015_commands = Some f ->
  Homebrew2015_spec b = let* d := f b in Ok (VObj "Homebrew2015" ([("command_prefix", VStr (lit s))] ++ d)).
Proof.
  intros H Hs Ha Hf. pose proof (prefix_len b s H Hs). unfold Homebrew2015_spec. destruct (Z.ltb_spec (blen b) 4); [lia|]. rewrite H, Hf.
  rewrite (encode_decode UTF8 (lit s) (blit s)); [reflexivity|]. apply encode_lit; auto.
Qed.
Lemma mm_dispatch b s f : slice b 0 4 = blit s -> blen (blit s) = 4 -> ascii_lit s = true -> find_command (blit s) Mmdvm2020_commands = Some f ->
  Mmdvm2020_spec b = let* d := f b in Ok (VObj "Mmdvm2020" ([("command_prefix", VStr (lit s))] ++ d)).
Proof.
  intros H Hs Ha Hf. pose proof (prefix_len b s H Hs). unfold Mmdvm2020_spec. destruct (Z.ltb_spec (blen b) 4); [lia|]. rewrite H, Hf.
  rewrite (encode_decode ASCII (lit s) (blit s)); [reflexivity|]. apply encode_lit; auto.
Qed.

(** ** DMRD *)
Definition dmrd_attrs (ts ct ft : enumdef) (b : bytes) : attrs :=
  [("sequence_no", VInt (ubits b 32 8)); ("source_id", VInt (ubits b 40 24)); ("target_id", VInt (ubits b 64 24));
   ("repeater_id", VInt (ubits b 88 32)); ("slot_no", resolve_enum ts (ubits b 120 1)); ("call_type", resolve_enum ct (ubits b 121 1));
   ("frame_type", resolve_enum ft (ubits b 122 2)); ("data_type", VInt (ubits b 124 4)); ("stream_id", VInt (ubits b 128 32));
   ("dmr_data", VBytes (slice b 20 33))] ++
  (if 54 <=? blen b then [("bit_error_rate", VInt (ubits b 424 8))] else []) ++
  (if 55 <=? blen b then [("rssi", VInt (ubits b 432 8))] else []).

Lemma dmrd_hb_ok b : 53 <= blen b -> Homebrew2015_dmrd b 4 = Ok (VObj "Homebrew2015.TypeDmrData" (dmrd_attrs Homebrew2015_Timeslots Homebrew2015_CallTypes Homebrew2015_FrameTypes b)).
Proof.
  intros H. unfold Homebrew2015_dmrd, L_Homebrew2015_TypeDmrData, dmrd_attrs. plain_fields. cbn [rbind]. norm_lits.
  destruct (Z.ltb_spec 53 (blen b)), (Z.ltb_spec 54 (blen b)), (Z.leb_spec 54 (blen b)), (Z.leb_spec 55 (blen b)); try lia; reflexivity.
Qed.
Lemma dmrd_mm_ok b : 53 <= blen b -> Mmdvm2020_dmrd b 4 = Ok (VObj "Mmdvm2020.TypeDmrData" (dmrd_attrs Mmdvm2020_Timeslots Mmdvm2020_CallTypes Mmdvm2020_FrameTypes b)).
Proof.
  intros H. unfold Mmdvm2020_dmrd, L_Mmdvm2020_TypeDmrData, dmrd_attrs. plain_fields. cbn [rbind]. norm_lits.
  destruct (Z.ltb_spec 53 (blen b)), (Z.ltb_spec 54 (blen b)), (Z.leb_spec 54 (blen b)), (Z.leb_spec 55 (blen b)); try lia; reflexivity.
Qed.
Lemma dmrd_hb_short b : blen b < 53 -> Homebrew2015_dmrd b 4 = Err EOFError.
Proof.
  intros H. unfold Homebrew2015_dmrd. destruct (plain_iff b 4 392 L_Homebrew2015_TypeDmrData) as [[H1 _]|[_ ->]]; try reflexivity; lia.
Qed.
Lemma dmrd_mm_short b : blen b < 53 -> Mmdvm2020_dmrd b 4 = Err EOFError.
Proof.
  intros H. unfold Mmdvm2020_dmrd. destruct (plain_iff b 4 392 L_Mmdvm2020_TypeDmrData) as [[H1 _]|[_ ->]]; try reflexivity; lia.
Qed.

(** ** ASCII text tables *)
Definition ascii_bytes (l : bytes) : Prop := Forall (fun x => bz x < 128) l.

Lemma dec_ascii_iff l : (exists s, decode_text ASCII l = Some s) <-> ascii_bytes l.
Proof.
  unfold ascii_bytes. split.
  - intros [s H]. apply decode_encode in H. revert l H. induction s as [|c s IH]; cbn [encode_text]; intros l H.
    + assert (l = []) as -> by congruence. constructor.
    + cbn [encode_cp] in H. unfold enc_ascii_cp in H. destruct ((0 <=? c) && (c <? 128)) eqn:E; [|discriminate].
      destruct (encode_text ASCII s) as [y|]; [|discriminate]. assert (l = zb c :: y) as -> by (cbn in H; congruence).
      constructor; [|apply IH; reflexivity]. rewrite bz_zb; lia.
  - intros H. assert (exists s, encode_text ASCII s = Some l) as [s Hs].
    { induction H as [|x l Hx Hl [s Hs]]; [exists []; reflexivity|]. exists (bz x :: s). cbn [encode_text]. rewrite Hs. cbn [encode_cp]. unfold enc_ascii_cp.
      pose proof (bz_range x). replace ((0 <=? bz x) && (bz x <? 128)) with true by lia. rewrite zb_bz. reflexivity. }
    exists s. apply encode_decode. exact Hs.
Qed.

Lemma ascii_dec l : {ascii_bytes l} + {~ ascii_bytes l}.
Proof.
  destruct (forallb (fun x => bz x <? 128) l) eqn:E; [left|right]; unfold ascii_bytes.
  - apply Forall_forall. intros x Hx. rewrite forallb_forall in E. specialize (E x Hx). lia.
  - intros H. assert (forallb (fun x => bz x <? 128) l = true); [|congruence]. apply forallb_forall. intros x Hx. rewrite Forall_forall in H. specialize (H x Hx). lia.
Qed.

(** numbers and ASCII text only *)
Definition ascii_table (fs : list field) : bool :=
  forallb (fun f => match f_kind f with KNum _ => true | KStr ASCII n => 0 <=? n | _ => false end) fs.

Definition texts (b : bytes) (k : Z) (fs : list field) : list bytes :=
  flat_map (fun f => match f_kind f with KStr _ n => [slice b (k + f_off f / 8) n] | _ => [] end) fs.

Lemma ascii_fields b k fs : ascii_table fs = true -> forallb (fun f => fits b k (f_off f + kwidth (f_kind f))) fs = true ->
  (Forall ascii_bytes (texts b k fs) /\ exists a, fields b k fs = Ok a) \/
  (~ Forall ascii_bytes (texts b k fs) /\ fields b k fs = Err (UnicodeDecodeError "ascii")).
Proof.
  unfold texts. induction fs as [|f fs IH]; intros Ht Hf; [left; split; [constructor|eexists; reflexivity]|].
  cbn [ascii_table forallb] in Ht, Hf. apply andb_true_iff in Ht as [H1 H2]. apply andb_true_iff in Hf as [F1 F2]. specialize (IH H2 F2).
  cbn [fields flat_map]. unfold decode. destruct (f_kind f) as [nf| | |n|e n|l p|w g]; try discriminate H1; rewrite F1.
  - cbn [app]. destruct IH as [[I1 [a Ha]]|[I1 Ha]]; rewrite Ha; [left|right]; (split; [exact I1|]); [eexists|]; reflexivity.
  - destruct e; try discriminate H1. cbn [app].
    destruct (ascii_dec (slice b (k + f_off f / 8) n)) as [Ha|Ha].
    + destruct (proj2 (dec_ascii_iff _) Ha) as [s ->].
      destruct IH as [[I1 [a E]]|[I1 E]]; rewrite E; [left|right]; (split; [|try eexists; reflexivity]).
      * constructor; assumption.
      * intros C. inversion C; contradiction.
    + destruct (decode_text ASCII (slice b (k + f_off f / 8) n)) as [s|] eqn:E.
      * exfalso. apply Ha. apply dec_ascii_iff. eauto.
      * right. split; [|reflexivity]. intros C. inversion C; contradiction.
Qed.

(** any error of such a table *)
Lemma ascii_fields_err b k fs e : ascii_table fs = true -> fields b k fs = Err e -> e = EOFError \/ e = UnicodeDecodeError "ascii".
Proof.
  induction fs as [|f fs IH]; intros Ht H; [discriminate|]. cbn [ascii_table forallb] in Ht. apply andb_true_iff in Ht as [H1 H2].
  cbn [fields] in H. unfold decode in H. destruct (f_kind f) as [nf| | |n|en n|l p|w g]; try discriminate H1.
  - destruct (fits _ _ _); [|left; congruence]. destruct (fields b k fs); [discriminate|]. apply IH; [exact H2|congruence].
  - destruct en; try discriminate H1. destruct (fits _ _ _); [|left; congruence]. destruct (decode_text _ _); [|right; cbn in H; congruence].
    destruct (fields b k fs); [discriminate|]. apply IH; [exact H2|congruence].
Qed.

Lemma fields_fit b k fs a c : ascii_table fs = true -> tiles fs c = true -> c < fs_end fs c -> fields b k fs = Ok a -> fits b k (fs_end fs c) = true.
Proof.
  revert a c. induction fs as [|f fs IH]; intros a c Ht Hi Hc H; [cbn in Hc; lia|].
  cbn [ascii_table forallb] in Ht. apply andb_true_iff in Ht as [H1 H2]. cbn [tiles] in Hi. apply andb_true_iff in Hi as [I1 I2]. apply Z.eqb_eq in I1.
  cbn [fields fs_end] in *. rewrite I1 in *.
  assert (F : fits b k (c + kwidth (f_kind f)) = true).
  { destruct (fits b k (c + kwidth (f_kind f))) eqn:EF; [reflexivity|]. unfold decode in H. destruct (f_kind f); try discriminate H1; rewrite EF in H; discriminate. }
  destruct (decode _ _ _ _); [|discriminate]. destruct (fields b k fs) as [a'|] eqn:E; [|discriminate].
  destruct (Z_lt_le_dec (c + kwidth (f_kind f)) (fs_end fs (c + kwidth (f_kind f)))) as [Hlt|Hge]; [exact (IH a' _ H2 I2 Hlt eq_refl)|].
  apply fits_iff in F. apply fits_iff. lia.
Qed.

Lemma ascii_slice b p n : 0 <= p -> 0 <= n -> p + n <= blen b -> (ascii_bytes (slice b p n) <-> forall i, p <= i < p + n -> bz (nth (Z.to_nat i) b Byte.x00) < 128).
Proof.
  intros Hp Hn Hl. unfold ascii_bytes. split.
  - intros H i Hi. rewrite Forall_nth in H. rewrite <- (Z.add_0_l i). replace (0 + i) with (p + (i - p)) by lia. rewrite <- (nth_slice b p n) by lia.
    apply H. pose proof (blen_slice b p n Hp Hn Hl) as E. unfold blen in E. lia.
  - intros H. apply Forall_nth. intros i d Hi. pose proof (blen_slice b p n Hp Hn Hl) as E. unfold blen in E.
    rewrite (nth_indep _ d Byte.x00) by assumption. replace i with (Z.to_nat (Z.of_nat i)) by lia. rewrite (nth_slice b p n) by lia. apply H. lia.
Qed.

Lemma ascii_rest b p : 0 <= p -> p <= blen b -> (ascii_bytes (rest b p) <-> forall i, p <= i < blen b -> bz (nth (Z.to_nat i) b Byte.x00) < 128).
Proof.
  intros Hp Hl. Transparent slice. assert (rest b p = slice b p (blen b - p)) as ->.
  { unfold rest, slice. symmetry. apply firstn_all2. rewrite skipn_length. unfold blen in *. lia. }
  Opaque slice. rewrite (ascii_slice b p) by lia. replace (p + (blen b - p)) with (blen b) by lia. reflexivity.
Qed.

(** consecutive text fields *)
Lemma texts_join b k fs : 0 <= k -> forall c, 0 <= c -> forallb (fun f => match f_kind f with KStr ASCII n => 0 <=? n | _ => false end) fs = true ->
  tiles fs (8 * c) = true -> 8 * k + fs_end fs (8 * c) <= 8 * blen b ->
  8 * c <= fs_end fs (8 * c) /\
  (Forall ascii_bytes (texts b k fs) <-> forall i, k + c <= i -> 8 * i < 8 * k + fs_end fs (8 * c) -> bz (nth (Z.to_nat i) b Byte.x00) < 128).
Proof.
  intros Hk. unfold texts. induction fs as [|f fs IH]; intros c Hc Ht Hi He.
  - cbn [fs_end flat_map]. split; [lia|]. split; [intros _ i H1 H2; lia|constructor].
  - cbn [forallb] in Ht. apply andb_true_iff in Ht as [H1 H2]. cbn [tiles] in Hi. apply andb_true_iff in Hi as [I1 I2]. apply Z.eqb_eq in I1.
    cbn [fs_end flat_map] in *. rewrite I1 in *. destruct (f_kind f) as [nf| | |n|e n|l p|w g]; try discriminate H1. destruct e; try discriminate H1.
    cbn [kwidth] in *. replace (8 * c + 8 * n) with (8 * (c + n)) in * by lia. apply Z.leb_le in H1.
    destruct (IH (c + n) ltac:(lia) H2 I2 He) as [J1 J2]. split; [lia|]. cbn [app]. replace (k + 8 * c / 8) with (k + c) by lia.
    pose proof (ascii_slice b (k + c) n ltac:(lia) H1 ltac:(lia)) as Hs. split.
    + intros H i A1 A2. inversion H; subst. destruct (Z_lt_le_dec i (k + c + n)); [apply (proj1 Hs); [assumption|lia]|apply (proj1 J2); [assumption|lia|lia]].
    + intros H. constructor; [apply (proj2 Hs); intros i Hii; apply H; lia|]. apply (proj2 J2). intros i A1 A2. apply H; lia.
Qed.

(** repeater id, then text to the end *)
Lemma texts_config b L w : 302 <= blen b -> 
  (exists fs, L = F "repeater_id" 0 (U 32) :: fs /\ w = fs_end fs 32 /\ forallb (fun f => match f_kind f with KStr ASCII n => 0 <=? n | _ => false end) fs = true /\ tiles fs 32 = true) -> w = 2384 ->
  (Forall ascii_bytes (texts b 4 L) /\ ascii_bytes (rest b 302) <-> forall i, 8 <= i < blen b -> bz (nth (Z.to_nat i) b Byte.x00) < 128).
Proof.
  intros Hl [fs [-> [-> [Hf Ht]]]] Hw. unfold texts. cbn [flat_map f_kind app].
  destruct (texts_join b 4 fs ltac:(lia) 4 ltac:(lia) Hf Ht ltac:(change (8 * 4) with 32; lia)) as [_ J]. change (8 * 4) with 32 in J. rewrite Hw in J. unfold texts in J.
  rewrite J, (ascii_rest b 302) by lia. split.
  - intros [A1 A2] i Hi. destruct (Z_lt_le_dec i 302); [apply A1|apply A2]; lia.
  - intros H. split; intros i; intros; apply H; lia.
Qed.
Lemma texts_config_hb b : 302 <= blen b ->
  (Forall ascii_bytes (texts b 4 L_Homebrew2015_TypeRepeaterConfiguration) /\ ascii_bytes (rest b 302) <-> forall i, 8 <= i < blen b -> bz (nth (Z.to_nat i) b Byte.x00) < 128).
Proof. intros H. eapply texts_config; [exact H| |reflexivity]. eexists. split; [reflexivity|]. repeat split. Qed.
Lemma texts_config_mm b : 302 <= blen b ->
  (Forall ascii_bytes (texts b 4 L_Mmdvm2020_TypeRepeaterConfiguration) /\ ascii_bytes (rest b 302) <-> forall i, 8 <= i < blen b -> bz (nth (Z.to_nat i) b Byte.x00) < 128).
Proof. intros H. eapply texts_config; [exact H| |reflexivity]. eexists. split; [reflexivity|]. repeat split. Qed.

(** the configuration body: by length and characters *)
Lemma config_cases (cfg : bytes -> Z -> res pyval) cls L b :
  cfg = (fun b k => let* h := fields b k L in let* t := text_rest ASCII b (k + 298) in Ok (VObj cls (h ++ [("unparsed_data", t)]))) ->
  ascii_table L = true -> tiles L 0 = true -> fs_end L 0 = 2384 -> kinds_ok L = true ->
  (302 <= blen b -> (Forall ascii_bytes (texts b 4 L) /\ ascii_bytes (rest b 302) <-> forall i, 8 <= i < blen b -> bz (nth (Z.to_nat i) b Byte.x00) < 128)) ->
  (blen b < 302 -> cfg b 4 = Err EOFError \/ cfg b 4 = Err (UnicodeDecodeError "ascii")) /\
  (302 <= blen b -> (forall i, 8 <= i < blen b -> bz (nth (Z.to_nat i) b Byte.x00) < 128) -> exists v, cfg b 4 = Ok v) /\
  (302 <= blen b -> (exists i, 8 <= i < blen b /\ 128 <= bz (nth (Z.to_nat i) b Byte.x00)) -> cfg b 4 = Err (UnicodeDecodeError "ascii")).
Proof.
  intros -> Ha Ht He Ho Hx. cbv beta. change (4 + 298) with 302. 
  assert (Hfit : 302 <= blen b -> forallb (fun f => fits b 4 (f_off f + kwidth (f_kind f))) L = true).
  { intros Hl. apply forallb_forall. intros f Hf. apply fits_iff.
    enough (f_off f + kwidth (f_kind f) <= fs_end L 0) by lia.
    clear He Hx Ha Hl. revert Ht Ho Hf. generalize 0. induction L as [|g L IH]; intros c Ht Ho Hf; [contradiction|].
    cbn [tiles kinds_ok forallb] in Ht, Ho. apply andb_true_iff in Ht as [T1 T2]. apply andb_true_iff in Ho as [O1 O2]. apply Z.eqb_eq in T1.
    cbn [fs_end]. rewrite T1. destruct Hf as [->|Hf].
    - rewrite T1. apply fs_end_tiles; assumption.
    - apply IH; assumption. }
  assert (Hrest : forall x, text_rest ASCII b 302 = x -> (exists s, x = Ok (VStr s) /\ ascii_bytes (rest b 302)) \/ (x = Err (UnicodeDecodeError "ascii") /\ ~ ascii_bytes (rest b 302))).
  { intros x <-. unfold text_rest. destruct (decode_text ASCII (rest b 302)) eqn:E; [left|right].
    - eexists. split; [reflexivity|]. apply dec_ascii_iff. eauto.
    - split; [reflexivity|]. intros C. apply dec_ascii_iff in C as [s C]. congruence. }
  repeat split.
  - intros Hl. destruct (fields b 4 L) as [a|e] eqn:E.
    + exfalso. apply (fields_fit b 4 L a 0) in E; [|exact Ha|exact Ht|rewrite He; lia]. rewrite He in E. apply fits_iff in E. lia.
    + cbn [rbind]. destruct (ascii_fields_err b 4 L e Ha E) as [->| ->]; [left|right]; reflexivity.
  - intros Hl Hall. apply Hx in Hall; [|assumption]. destruct Hall as [H1 H2].
    destruct (ascii_fields b 4 L Ha (Hfit Hl)) as [[_ [a ->]]|[C _]]; [|contradiction].
    cbn [rbind]. destruct (Hrest _ eq_refl) as [[s [-> _]]|[_ C]]; [eexists; reflexivity|contradiction].
  - intros Hl [i [Hi Hb]].
    destruct (ascii_fields b 4 L Ha (Hfit Hl)) as [[H1 [a ->]]|[_ ->]]; [|reflexivity]. cbn [rbind].
    destruct (Hrest _ eq_refl) as [[s [_ H2]]|[-> _]]; [|reflexivity].
    exfalso. pose proof (proj1 (Hx Hl) (conj H1 H2) i Hi). lia.
Qed.

(** ** fifth_letter *)
Definition fifth_value (b : bytes) : res pyval :=
  if blen b <=? 4 then Err EOFError
  else match decode_text ASCII (slice b 4 1) with Some c => Ok (VStr c) | None => Err (UnicodeDecodeError "ascii") end.

Lemma fifth_any rt b s : s_buf s = b ->
  let '(r, s') := (x <- Homebrew2015_fifth_letter rt;; ret (VStr x)) s in
  r = fifth_value b /\ s_buf s' = b /\ (forall v, fifth_value b = Ok v -> s_pos s' = s_pos s).
Proof.
  Transparent slice. intros Hb. unfold Homebrew2015_fifth_letter, bind, io_pos, io_seek, read_str, bind, read_bytes, raw_read_bytes, io_read, fifth_value, slice.
  change (1 <? 0) with false. cbv iota. cbn [s_pos s_buf set_pos].
  assert (E : forall s0 : stream, s_buf (set_pos (auto_align rt s0) 4) = s_buf s0) by (intros; destruct rt; reflexivity).
  assert (E1 : s_buf (auto_align rt (set_pos (auto_align rt s) 4)) = b) by (destruct rt; exact Hb).
  assert (E2 : s_pos (auto_align rt (set_pos (auto_align rt s) 4)) = 4%nat) by (destruct rt; reflexivity).
  change (Z.to_nat 4) with 4%nat. rewrite !E1, !E2.
  destruct (Z.leb_spec (blen b) 4) as [Hl|Hl].
  - assert (Es : skipn 4 b = []) by (apply skipn_all2; unfold blen in Hl; lia). rewrite Es. cbn. split; [reflexivity|]. split; [exact E1|discriminate].
  - assert (Es : exists x t, skipn 4 b = x :: t).
    { destruct (skipn 4 b) as [|x t] eqn:Es; [|eauto]. apply (f_equal (@List.length _)) in Es. rewrite skipn_length in Es. cbn in Es. unfold blen in Hl. lia. }
    destruct Es as [x [t Es]]. rewrite Es. cbn [firstn Z.to_nat Pos.to_nat Pos.iter_op].
    assert (Eg : (if blen (x :: t) <=? 1 then x :: t else [x]) = [x]).
    { destruct (Z.leb_spec (blen (x :: t)) 1); [|reflexivity]. destruct t; [reflexivity|]. unfold blen in *. cbn [List.length] in *. lia. }
    change (Pos.to_nat 1) with 1%nat. cbn [firstn]. rewrite Eg. change (blen [x] <? 1) with false. cbv iota. unfold lift, py_decode.
    destruct (decode_text ASCII [x]) as [c|].
    + cbn [ret]. unfold ret. split; [reflexivity|]. split; [destruct rt; cbn; exact Hb|]. intros _ _. destruct rt; cbn; lia.
    + split; [reflexivity|]. split; [exact E1|discriminate].
Qed.
Opaque slice.

Lemma fifth_history rt b o ops (prop : live -> res pyval * live) :
  prop = memo "fifth_letter" (fun _ => x <- Homebrew2015_fifth_letter rt;; ret (VStr x)) ->
  intact b (l_attrs o) (fun _ => fifth_value b) o ->
  Forall (fun ob => ob_result ob = fifth_value b /\ (forall v, ob_result ob = Ok v -> ob_after ob = ob_before ob)) (history rt (fun _ => prop) ops o).
Proof.
  intros Hp Ho. apply (history_intact rt b (l_attrs o) (fun _ => fifth_value b)); [|exact Ho]. intros _ o' Ho'. subst prop.
  apply (memo_intact b (l_attrs o) (fun _ => fifth_value b) "fifth_letter"); [|exact Ho'].
  intros a s _ Hs. exact (fifth_any rt b s Hs).
Qed.

Lemma cmd_attrs f b d : cmd f b = Ok d -> exists v, d = [("command_data", v)].
Proof. unfold cmd. destruct (f b 4); [|discriminate]. cbn. intros [= <-]. eauto. Qed.

Lemma fifth_keep_attrs b a : (exists x v, a = [("command_prefix", x); ("command_data", v)]) \/ (exists x, a = [("command_prefix", x)]) \/
    (exists x v c, a = [("command_prefix", x); ("_m_fifth_letter", c); ("command_data", v)] /\ fifth_value b = Ok c) ->
  forall x, lookup ("_m_" ++ x) a = None \/ exists v, lookup ("_m_" ++ x) a = Some v /\ fifth_value b = Ok v.
Proof.
  intros [[p [v ->]]|[[p ->]|[p [v [c [-> Hc]]]]]] x; cbn; [left; reflexivity|left; reflexivity|].
  destruct (String.eqb x "fifth_letter"); [right; eauto|left; reflexivity].
Qed.

Lemma hb_attrs rt b o : open_object (p_Homebrew2015 rt) b = Ok o -> intact b (l_attrs o) (fun _ => fifth_value b) o.
Proof.
  intros H. split; [eapply open_buf; [|exact H]; keepsok|]. split; [reflexivity|]. apply fifth_keep_attrs.
  apply open_from in H as [cls H]. rewrite homebrew_ok in H. unfold Homebrew2015_spec in H.
  destruct (blen b <? 4); [discriminate|]. destruct (decode_text UTF8 _) as [p|]; [|discriminate].
  destruct (find_command _ _) as [f|] eqn:Ef.
  - destruct (f b) as [d|] eqn:Ed; [|discriminate]. cbn [rbind app] in H. assert (Ha : l_attrs o = ("command_prefix", VStr p) :: d) by congruence. rewrite Ha.
    unfold Homebrew2015_commands, find_command in Ef.
    repeat match type of Ef with (if ?c then _ else _) = _ => destruct c; [assert (Hf := f_equal (fun o => match o with Some g => g b | None => Ok [] end) Ef); cbv beta iota in Hf; rewrite Ed in Hf; clear Ef|] end;
      try discriminate Ef; try (left; apply cmd_attrs in Hf as [v ->]; eauto).
    right. right. unfold Homebrew2015_config_or_closing in Hf. unfold fifth_value.
    destruct (blen b <=? 4); [discriminate|]. destruct (decode_text ASCII _) as [c|]; [|discriminate].
    match type of Hf with rbind ?r _ = _ => destruct r as [v|]; [|discriminate] end. cbn [rbind] in Hf. assert (d = [("_m_fifth_letter", VStr c);
      ("command_data", VObj "Homebrew2015.TypeRepeaterConfigurationOrClosing" [("data", v)])]) as -> by congruence. eauto 10.
  - cbn [rbind] in H. right. left. exists (VStr p). cbn [app] in H. congruence.
Qed.
Lemma mm_attrs rt b o : open_object (p_Mmdvm2020 rt) b = Ok o -> intact b (l_attrs o) (fun _ => fifth_value b) o.
Proof.
  intros H. split; [eapply open_buf; [|exact H]; keepsok|]. split; [reflexivity|]. apply fifth_keep_attrs.
  apply open_from in H as [cls H]. rewrite mmdvm_ok in H. unfold Mmdvm2020_spec in H.
  destruct (blen b <? 4); [discriminate|]. destruct (decode_text ASCII (slice b 0 4)) as [p|]; [|discriminate].
  destruct (find_command _ _) as [f|] eqn:Ef.
  - destruct (f b) as [d|] eqn:Ed; [|discriminate]. cbn [rbind app] in H. assert (Ha : l_attrs o = ("command_prefix", VStr p) :: d) by congruence. rewrite Ha.
    unfold Mmdvm2020_commands, find_command in Ef.
    repeat match type of Ef with (if ?c then _ else _) = _ => destruct c; [assert (Hf := f_equal (fun o => match o with Some g => g b | None => Ok [] end) Ef); cbv beta iota in Hf; rewrite Ed in Hf; clear Ef|] end;
      try discriminate Ef; try (left; apply cmd_attrs in Hf as [v ->]; eauto).
    right. right. unfold Mmdvm2020_config_or_closing in Hf. unfold fifth_value.
    destruct (blen b <=? 4); [discriminate|]. destruct (decode_text ASCII (slice b 4 1)) as [c|]; [|discriminate].
    match type of Hf with rbind ?r _ = _ => destruct r as [v|]; [|discriminate] end. cbn [rbind] in Hf. assert (d = [("_m_fifth_letter", VStr c);
      ("command_data", VObj "Mmdvm2020.TypeRepeaterConfigurationOrClosing" [("data", v)])]) as -> by congruence. eauto 10.
  - cbn [rbind] in H. right. left. exists (VStr p). cbn [app] in H. congruence.
Qed.

(** ** RPTC *)
Lemma fifth_slice b : 5 <= blen b -> slice b 4 1 = [nth 4 b Byte.x00].
Proof.
  Transparent slice. intros H. unfold slice. change (Z.to_nat 1) with 1%nat. change (Z.to_nat 4) with 4%nat.
  destruct b as [|x0 [|x1 [|x2 [|x3 [|x4 b]]]]]; try (unfold blen in H; cbn in H; lia). reflexivity.
Qed.
Opaque slice.

Lemma dec_ascii_1 x : decode_text ASCII [x] = if bz x <? 128 then Some [bz x] else None.
Proof. destruct x; reflexivity. Qed.
Lemma is_L x : bytes_eqb [x] (blit "L") = (bz x =? 0x4c).
Proof. destruct x; reflexivity. Qed.

Lemma closing_hb b : 9 <= blen b -> bz (nth 4 b Byte.x00) = 0x4c -> object "Homebrew2015.TypeRepeaterClosing" L_Homebrew2015_TypeRepeaterClosing b 4 =
  Ok (VObj "Homebrew2015.TypeRepeaterClosing" [("magic", VBytes (blit "L")); ("repeater_id", VInt (ubits b 40 32))]).
Proof.
  intros Hl H5. unfold object, L_Homebrew2015_TypeRepeaterClosing. cbn [fields f_off f_kind decode kwidth]. change (blen (B [76])) with 1.
  change (4 + 0 / 8) with 4. change (8 * 1) with 8. change (B [76]) with (blit "L").
  rewrite (fifth_slice b), is_L, H5 by lia. cbn [nwidth num]. norm_lits. rewrite !(proj2 (fits_iff b 4 _)) by lia. reflexivity.
Qed.
Lemma closing_mm b : 9 <= blen b -> bz (nth 4 b Byte.x00) = 0x4c -> object "Mmdvm2020.TypeRepeaterClosing" L_Mmdvm2020_TypeRepeaterClosing b 4 =
  Ok (VObj "Mmdvm2020.TypeRepeaterClosing" [("magic", VBytes (blit "L")); ("repeater_id", VInt (ubits b 40 32))]).
Proof.
  intros Hl H5. unfold object, L_Mmdvm2020_TypeRepeaterClosing. cbn [fields f_off f_kind decode kwidth]. change (blen (B [76])) with 1.
  change (4 + 0 / 8) with 4. change (8 * 1) with 8. change (B [76]) with (blit "L").
  rewrite (fifth_slice b), is_L, H5 by lia. cbn [nwidth num]. norm_lits. rewrite !(proj2 (fits_iff b 4 _)) by lia. reflexivity.
Qed.
Lemma closing_short_hb b : 5 <= blen b < 9 -> bz (nth 4 b Byte.x00) = 0x4c -> object "Homebrew2015.TypeRepeaterClosing" L_Homebrew2015_TypeRepeaterClosing b 4 = Err EOFError.
Proof.
  intros Hl H5. unfold object, L_Homebrew2015_TypeRepeaterClosing. cbn [fields f_off f_kind decode kwidth]. change (blen (B [76])) with 1.
  change (4 + 0 / 8) with 4. change (8 * 1) with 8. change (B [76]) with (blit "L").
  rewrite (fifth_slice b), is_L, H5 by lia. cbn [nwidth num]. norm_lits. rewrite (proj2 (fits_iff b 4 8)), (proj2 (fits_niff b 4 40)) by lia. reflexivity.
Qed.
Lemma closing_short_mm b : 5 <= blen b < 9 -> bz (nth 4 b Byte.x00) = 0x4c -> object "Mmdvm2020.TypeRepeaterClosing" L_Mmdvm2020_TypeRepeaterClosing b 4 = Err EOFError.
Proof.
  intros Hl H5. unfold object, L_Mmdvm2020_TypeRepeaterClosing. cbn [fields f_off f_kind decode kwidth]. change (blen (B [76])) with 1.
  change (4 + 0 / 8) with 4. change (8 * 1) with 8. change (B [76]) with (blit "L").
  rewrite (fifth_slice b), is_L, H5 by lia. cbn [nwidth num]. norm_lits. rewrite (proj2 (fits_iff b 4 8)), (proj2 (fits_niff b 4 40)) by lia. reflexivity.
Qed.

Lemma rptc_cases_hb b : slice b 0 4 = blit "RPTC" -> 5 <= blen b ->
  let fifth := bz (nth 4 b Byte.x00) in let r := Homebrew2015_spec b in
  let object_with d := VObj "Homebrew2015" [("command_prefix", VStr (lit "RPTC")); ("_m_fifth_letter", VStr [fifth]);
                         ("command_data", VObj "Homebrew2015.TypeRepeaterConfigurationOrClosing" [("data", d)])] in
  (128 <= fifth -> r = Err (UnicodeDecodeError "ascii")) /\
  (fifth = 0x4c -> 9 <= blen b -> r = Ok (object_with (VObj "Homebrew2015.TypeRepeaterClosing" [("magic", VBytes (blit "L")); ("repeater_id", VInt (ubits b 40 32))]))) /\
  (fifth = 0x4c -> blen b < 9 -> r = Err EOFError) /\
  (fifth < 128 -> fifth <> 0x4c -> r = rmap object_with (Homebrew2015_config b 4)).
Proof.
  intros H Hl. cbv zeta. rewrite (hb_dispatch b "RPTC" Homebrew2015_config_or_closing H) by reflexivity. unfold Homebrew2015_config_or_closing.
  destruct (Z.leb_spec (blen b) 4); [lia|]. rewrite fifth_slice, dec_ascii_1, is_L by assumption.
  repeat split.
  - intros H5. destruct (Z.ltb_spec (bz (nth 4 b Byte.x00)) 128); [lia|]. reflexivity.
  - intros H5 H9. rewrite H5. rewrite closing_hb by assumption. reflexivity.
  - intros H5 H9. rewrite H5. rewrite closing_short_hb by (assumption || lia). reflexivity.
  - intros H5 HL. destruct (Z.ltb_spec (bz (nth 4 b Byte.x00)) 128); [|lia]. destruct (Z.eqb_spec (bz (nth 4 b Byte.x00)) 0x4c); [lia|].
    destruct (Homebrew2015_config b 4); reflexivity.
Qed.
Lemma rptc_cases_mm b : slice b 0 4 = blit "RPTC" -> 5 <= blen b ->
  let fifth := bz (nth 4 b Byte.x00) in let r := Mmdvm2020_spec b in
  let object_with d := VObj "Mmdvm2020" [("command_prefix", VStr (lit "RPTC")); ("_m_fifth_letter", VStr [fifth]);
                         ("command_data", VObj "Mmdvm2020.TypeRepeaterConfigurationOrClosing" [("data", d)])] in
  (128 <= fifth -> r = Err (UnicodeDecodeError "ascii")) /\
  (fifth = 0x4c -> 9 <= blen b -> r = Ok (object_with (VObj "Mmdvm2020.TypeRepeaterClosing" [("magic", VBytes (blit "L")); ("repeater_id", VInt (ubits b 40 32))]))) /\
  (fifth = 0x4c -> blen b < 9 -> r = Err EOFError) /\
  (fifth < 128 -> fifth <> 0x4c -> r = rmap object_with (Mmdvm2020_config b 4)).
Proof.
  intros H Hl. cbv zeta. rewrite (mm_dispatch b "RPTC" Mmdvm2020_config_or_closing H) by reflexivity. unfold Mmdvm2020_config_or_closing.
  destruct (Z.leb_spec (blen b) 4); [lia|]. rewrite fifth_slice, dec_ascii_1, is_L by assumption.
  repeat split.
  - intros H5. destruct (Z.ltb_spec (bz (nth 4 b Byte.x00)) 128); [lia|]. reflexivity.
  - intros H5 H9. rewrite H5. rewrite closing_mm by assumption. reflexivity.
  - intros H5 H9. rewrite H5. rewrite closing_short_mm by (assumption || lia). reflexivity.
  - intros H5 HL. destruct (Z.ltb_spec (bz (nth 4 b Byte.x00)) 128); [|lia]. destruct (Z.eqb_spec (bz (nth 4 b Byte.x00)) 0x4c); [lia|].
    destruct (Mmdvm2020_config b 4); reflexivity.
Qed.

(** ** acceptance of configurations *)
Lemma accept_aux b (spec cfg : res pyval) (wrap : pyval -> pyval) :
  (blen b = 4 -> spec = Err EOFError) -> (5 <= blen b -> spec = rmap wrap cfg) -> 4 <= blen b ->
  (blen b < 302 -> cfg = Err EOFError \/ cfg = Err (UnicodeDecodeError "ascii")) /\
  (302 <= blen b -> (forall i, 8 <= i < blen b -> bz (nth (Z.to_nat i) b Byte.x00) < 128) -> exists v, cfg = Ok v) /\
  (302 <= blen b -> (exists i, 8 <= i < blen b /\ 128 <= bz (nth (Z.to_nat i) b Byte.x00)) -> cfg = Err (UnicodeDecodeError "ascii")) ->
  ((exists v, spec = Ok v) <-> 302 <= blen b /\ forall i, 8 <= i < blen b -> bz (nth (Z.to_nat i) b Byte.x00) < 128) /\
  (302 <= blen b -> (exists i, 8 <= i < blen b /\ 128 <= bz (nth (Z.to_nat i) b Byte.x00)) -> spec = Err (UnicodeDecodeError "ascii")).
Proof.
  intros H4 H5 Hl [C1 [C2 C3]]. split; [split|].
  - intros [v Hv]. destruct (Z.eq_dec (blen b) 4) as [E|E]; [rewrite H4 in Hv by assumption; discriminate|]. rewrite H5 in Hv by lia.
    destruct (Z_lt_le_dec (blen b) 302) as [Hs|Hs]; [destruct (C1 Hs) as [X|X]; rewrite X in Hv; discriminate|]. split; [exact Hs|].
    intros i Hi. destruct (Z_lt_le_dec (bz (nth (Z.to_nat i) b Byte.x00)) 128); [assumption|]. rewrite C3 in Hv; [discriminate|assumption|]. exists i. auto.
  - intros [A1 A2]. destruct (C2 A1 A2) as [v Hv]. rewrite H5, Hv by lia. eexists. reflexivity.
  - intros A1 A2. rewrite H5, C3 by (assumption || lia). reflexivity.
Qed.

Lemma rptc_len b : slice b 0 4 = blit "RPTC" -> 4 <= blen b.
Proof. intros H. apply (prefix_len b "RPTC" H). reflexivity. Qed.

Lemma config_accept_hb b : slice b 0 4 = blit "RPTC" -> bz (nth 4 b Byte.x00) < 128 -> bz (nth 4 b Byte.x00) <> 0x4c ->
  ((exists v, Homebrew2015_spec b = Ok v) <-> 302 <= blen b /\ forall i, 8 <= i < blen b -> bz (nth (Z.to_nat i) b Byte.x00) < 128) /\
  (302 <= blen b -> (exists i, 8 <= i < blen b /\ 128 <= bz (nth (Z.to_nat i) b Byte.x00)) -> Homebrew2015_spec b = Err (UnicodeDecodeError "ascii")).
Proof.
  intros H H1 H2. eapply (accept_aux b _ (Homebrew2015_config b 4)).
  - intros E. rewrite (hb_dispatch b "RPTC" Homebrew2015_config_or_closing H) by reflexivity. unfold Homebrew2015_config_or_closing. rewrite E. reflexivity.
  - intros E. destruct (rptc_cases_hb b H E) as [_ [_ [_ C]]]. exact (C H1 H2).
  - exact (rptc_len b H).
  - apply (config_cases Homebrew2015_config "Homebrew2015.TypeRepeaterConfiguration" L_Homebrew2015_TypeRepeaterConfiguration); try reflexivity. apply texts_config_hb.
Qed.
Lemma config_accept_mm b : slice b 0 4 = blit "RPTC" -> bz (nth 4 b Byte.x00) < 128 -> bz (nth 4 b Byte.x00) <> 0x4c ->
  ((exists v, Mmdvm2020_spec b = Ok v) <-> 302 <= blen b /\ forall i, 8 <= i < blen b -> bz (nth (Z.to_nat i) b Byte.x00) < 128) /\
  (302 <= blen b -> (exists i, 8 <= i < blen b /\ 128 <= bz (nth (Z.to_nat i) b Byte.x00)) -> Mmdvm2020_spec b = Err (UnicodeDecodeError "ascii")).
Proof.
  intros H H1 H2. eapply (accept_aux b _ (Mmdvm2020_config b 4)).
  - intros E. rewrite (mm_dispatch b "RPTC" Mmdvm2020_config_or_closing H) by reflexivity. unfold Mmdvm2020_config_or_closing. rewrite E. reflexivity.
  - intros E. destruct (rptc_cases_mm b H E) as [_ [_ [_ C]]]. exact (C H1 H2).
  - exact (rptc_len b H).
  - apply (config_cases Mmdvm2020_config "Mmdvm2020.TypeRepeaterConfiguration" L_Mmdvm2020_TypeRepeaterConfiguration); try reflexivity. apply texts_config_mm.
Qed.

(** ** re-encoding *)
Lemma config_roundtrip (cls : string) L b v :
  ascii_table L = true -> tiles L 0 = true -> fs_end L 0 = 2384 -> kinds_ok L = true -> forallb no_sub L = true ->
  (let* h := fields b 4 L in let* t := text_rest ASCII b 302 in Ok (VObj cls (h ++ [("unparsed_data", t)]))) = Ok v ->
  exists h t, v = VObj cls (h ++ [("unparsed_data", VStr t)]) /\ table_bits L h = Some (bytes_bits (slice b 4 298)) /\ encode_text ASCII t = Some (rest b 302).
Proof.
  intros Ha Ht He Ho Hn H. destruct (fields b 4 L) as [h|] eqn:E; [|discriminate]. cbn [rbind] in H. unfold text_rest in H.
  destruct (decode_text ASCII (rest b 302)) as [t|] eqn:Et; [|discriminate]. cbn [rbind] in H. exists h, t.
  split; [congruence|]. split; [|apply decode_encode, Et].
  pose proof (fields_fit b 4 L h 0 Ha Ht ltac:(rewrite He; lia) E) as Hf. rewrite He in Hf. apply fits_iff in Hf.
  pose proof (fields_bits L 0 b 4 h) as Hb. rewrite He in Hb. rewrite Hb; try assumption; try lia.
  f_equal. rewrite bytes_bits_slice by lia. f_equal; lia.
Qed.
Lemma config_roundtrip_hb b v : Homebrew2015_config b 4 = Ok v ->
  exists h t, v = VObj "Homebrew2015.TypeRepeaterConfiguration" (h ++ [("unparsed_data", VStr t)]) /\
    table_bits L_Homebrew2015_TypeRepeaterConfiguration h = Some (bytes_bits (slice b 4 298)) /\ encode_text ASCII t = Some (rest b 302).
Proof. intros H. eapply config_roundtrip; try reflexivity. exact H. Qed.
Lemma config_roundtrip_mm b v : Mmdvm2020_config b 4 = Ok v ->
  exists h t, v = VObj "Mmdvm2020.TypeRepeaterConfiguration" (h ++ [("unparsed_data", VStr t)]) /\
    table_bits L_Mmdvm2020_TypeRepeaterConfiguration h = Some (bytes_bits (slice b 4 298)) /\ encode_text ASCII t = Some (rest b 302).
Proof. intros H. eapply config_roundtrip; try reflexivity. exact H. Qed.

Lemma skipn_add {A} n m (l : list A) : skipn (n + m) l = skipn n (skipn m l).
Proof. revert l. induction m as [|m IH]; intros l; [now rewrite Nat.add_0_r|]. rewrite Nat.add_succ_r. destruct l; cbn [skipn]; [now rewrite skipn_nil|apply IH]. Qed.

Lemma split_302 b : 302 <= blen b -> b = slice b 0 4 ++ slice b 4 298 ++ rest b 302.
Proof.
  Transparent slice. intros H. unfold slice, rest. change (Z.to_nat 0) with 0%nat. cbn [skipn].
  change (Z.to_nat 302) with (298 + 4)%nat. change (Z.to_nat 4) with 4%nat. change (Z.to_nat 298) with 298%nat.
  rewrite (skipn_add 298 4). rewrite firstn_skipn. rewrite firstn_skipn. reflexivity.
Qed.
Opaque slice.

Lemma config_object_hb c v : slice c 0 4 = blit "RPTC" -> bz (nth 4 c Byte.x00) <> 0x4c -> Homebrew2015_spec c = Ok v ->
  302 <= blen c /\ exists d, Homebrew2015_config c 4 = Ok d /\ v = VObj "Homebrew2015" [("command_prefix", VStr (lit "RPTC")); ("_m_fifth_letter", VStr [bz (nth 4 c Byte.x00)]); ("command_data", VObj "Homebrew2015.TypeRepeaterConfigurationOrClosing" [("data", d)])].
Proof.
  intros Hc Nc Dc. pose proof (rptc_len c Hc) as L4.
  destruct (Z.eq_dec (blen c) 4) as [E|E].
  { rewrite (hb_dispatch c "RPTC" Homebrew2015_config_or_closing Hc) in Dc by reflexivity. unfold Homebrew2015_config_or_closing in Dc. rewrite E in Dc. discriminate. }
  destruct (rptc_cases_hb c Hc ltac:(lia)) as [C1 [_ [_ C2]]].
  destruct (Z_lt_le_dec (bz (nth 4 c Byte.x00)) 128) as [Ha|Ha]; [|rewrite C1 in Dc by exact Ha; discriminate].
  split; [apply (config_accept_hb c Hc Ha Nc); eauto|]. rewrite (C2 Ha Nc) in Dc. destruct (Homebrew2015_config c 4) as [d|]; [|discriminate]. cbn [rmap] in Dc.
  exists d. split; [reflexivity|]. symmetry. apply (f_equal (fun r => match r with Ok y => y | _ => VNone end)) in Dc. exact Dc.
Qed.
Lemma config_reencoded_hb b v : slice b 0 4 = blit "RPTC" -> bz (nth 4 b Byte.x00) <> 0x4c -> Homebrew2015_spec b = Ok v ->
  exists h t, v = VObj "Homebrew2015" [("command_prefix", VStr (lit "RPTC")); ("_m_fifth_letter", VStr [bz (nth 4 b Byte.x00)]);
      ("command_data", VObj "Homebrew2015.TypeRepeaterConfigurationOrClosing" [("data", VObj "Homebrew2015.TypeRepeaterConfiguration" (h ++ [("unparsed_data", VStr t)]))])] /\
    table_bits L_Homebrew2015_TypeRepeaterConfiguration h = Some (bytes_bits (slice b 4 298)) /\ encode_text ASCII t = Some (rest b 302).
Proof.
  intros H N D. destruct (config_object_hb b v H N D) as [_ [d [Hd ->]]]. apply config_roundtrip_hb in Hd as [h [t [-> [E2 E3]]]].
  exists h, t. auto.
Qed.
Lemma config_injective_hb b b' v : slice b 0 4 = blit "RPTC" -> slice b' 0 4 = blit "RPTC" ->
  bz (nth 4 b Byte.x00) <> 0x4c -> bz (nth 4 b' Byte.x00) <> 0x4c ->
  Homebrew2015_spec b = Ok v -> Homebrew2015_spec b' = Ok v -> b = b'.
Proof.
  intros H H' N N' D D'.
  destruct (config_object_hb b v H N D) as [L [d [Hd Hv]]]. destruct (config_object_hb b' v H' N' D') as [L' [d' [Hd' Hv']]].
  assert (d' = d) as -> by congruence.
  apply config_roundtrip_hb in Hd as [h [t [E1 [E2 E3]]]]. apply config_roundtrip_hb in Hd' as [h' [t' [E1' [E2' E3']]]].
  rewrite E1 in E1'. assert (E : h ++ [("unparsed_data", VStr t)] = h' ++ [("unparsed_data", VStr t')]) by congruence.
  apply app_inj_tail in E as [<- E]. assert (t' = t) as -> by congruence.
  rewrite (split_302 b L), (split_302 b' L'), H, H'. f_equal. f_equal; [apply bytes_bits_inj|]; congruence.
Qed.

Lemma config_object_mm c v : slice c 0 4 = blit "RPTC" -> bz (nth 4 c Byte.x00) <> 0x4c -> Mmdvm2020_spec c = Ok v ->
  302 <= blen c /\ exists d, Mmdvm2020_config c 4 = Ok d /\ v = VObj "Mmdvm2020" [("command_prefix", VStr (lit "RPTC")); ("_m_fifth_letter", VStr [bz (nth 4 c Byte.x00)]); ("command_data", VObj "Mmdvm2020.TypeRepeaterConfigurationOrClosing" [("data", d)])].
Proof.
  intros Hc Nc Dc. pose proof (rptc_len c Hc) as L4.
  destruct (Z.eq_dec (blen c) 4) as [E|E].
  { rewrite (mm_dispatch c "RPTC" Mmdvm2020_config_or_closing Hc) in Dc by reflexivity. unfold Mmdvm2020_config_or_closing in Dc. rewrite E in Dc. discriminate. }
  destruct (rptc_cases_mm c Hc ltac:(lia)) as [C1 [_ [_ C2]]].
  destruct (Z_lt_le_dec (bz (nth 4 c Byte.x00)) 128) as [Ha|Ha]; [|rewrite C1 in Dc by exact Ha; discriminate].
  split; [apply (config_accept_mm c Hc Ha Nc); eauto|]. rewrite (C2 Ha Nc) in Dc. destruct (Mmdvm2020_config c 4) as [d|]; [|discriminate]. cbn [rmap] in Dc.
  exists d. split; [reflexivity|]. symmetry. apply (f_equal (fun r => match r with Ok y => y | _ => VNone end)) in Dc. exact Dc.
Qed.
Lemma config_reencoded_mm b v : slice b 0 4 = blit "RPTC" -> bz (nth 4 b Byte.x00) <> 0x4c -> Mmdvm2020_spec b = Ok v ->
  exists h t, v = VObj "Mmdvm2020" [("command_prefix", VStr (lit "RPTC")); ("_m_fifth_letter", VStr [bz (nth 4 b Byte.x00)]);
      ("command_data", VObj "Mmdvm2020.TypeRepeaterConfigurationOrClosing" [("data", VObj "Mmdvm2020.TypeRepeaterConfiguration" (h ++ [("unparsed_data", VStr t)]))])] /\
    table_bits L_Mmdvm2020_TypeRepeaterConfiguration h = Some (bytes_bits (slice b 4 298)) /\ encode_text ASCII t = Some (rest b 302).
Proof.
  intros H N D. destruct (config_object_mm b v H N D) as [_ [d [Hd ->]]]. apply config_roundtrip_mm in Hd as [h [t [-> [E2 E3]]]].
  exists h, t. auto.
Qed.
Lemma config_injective_mm b b' v : slice b 0 4 = blit "RPTC" -> slice b' 0 4 = blit "RPTC" ->
  bz (nth 4 b Byte.x00) <> 0x4c -> bz (nth 4 b' Byte.x00) <> 0x4c ->
  Mmdvm2020_spec b = Ok v -> Mmdvm2020_spec b' = Ok v -> b = b'.
Proof.
  intros H H' N N' D D'.
  destruct (config_object_mm b v H N D) as [L [d [Hd Hv]]]. destruct (config_object_mm b' v H' N' D') as [L' [d' [Hd' Hv']]].
  assert (d' = d) as -> by congruence.
  apply config_roundtrip_mm in Hd as [h [t [E1 [E2 E3]]]]. apply config_roundtrip_mm in Hd' as [h' [t' [E1' [E2' E3']]]].
  rewrite E1 in E1'. assert (E : h ++ [("unparsed_data", VStr t)] = h' ++ [("unparsed_data", VStr t')]) by congruence.
  apply app_inj_tail in E as [<- E]. assert (t' = t) as -> by congruence.
  rewrite (split_302 b L), (split_302 b' L'), H, H'. f_equal. f_equal; [apply bytes_bits_inj|]; congruence.
Qed.

Lemma mm_undecodable b : (blen b < 4 -> Mmdvm2020_spec b = Err EOFError) /\
  (4 <= blen b -> (exists i, (i < 4)%nat /\ 128 <= bz (nth i b Byte.x00)) -> Mmdvm2020_spec b = Err (UnicodeDecodeError "ascii")).
Proof.
  unfold Mmdvm2020_spec. split; intros Hl; [|intros [i [Hi Hb]]]; destruct (Z.ltb_spec (blen b) 4); try lia; [reflexivity|].
  destruct (decode_text ASCII (slice b 0 4)) eqn:E; [|reflexivity]. exfalso.
  assert (A : ascii_bytes (slice b 0 4)) by (apply dec_ascii_iff; eauto). rewrite (ascii_slice b 0 4) in A by lia.
  specialize (A (Z.of_nat i) ltac:(lia)). rewrite Nat2Z.id in A. lia.
Qed.
