(** The interpreter of Ksy.v keeps the promises of KsySchema.v.  (Support for C58.) *)
From Verif Require Import PyBase Runtime Codec Spec RuntimeProofs Ksy KsySchema.
From Coq Require Import ZifyBool Lia.
Open Scope string_scope.
Open Scope list_scope.
Open Scope Z_scope.

Scheme expr_mind := Induction for expr Sort Prop
with inst_mind := Induction for inst Sort Prop
with ty_mind := Induction for ty Sort Prop
with cases_mind := Induction for cases Sort Prop
with key_mind := Induction for key Sort Prop
with rep_mind := Induction for rep Sort Prop
with attr_list_mind := Induction for attr_list Sort Prop
with typ_mind := Induction for typ Sort Prop.
(** [Combined Scheme] fails here (an anomaly of Coq 8.16: [key] is not recursive), so this is its result by hand. *)
Definition ksy_mind := fun P0 P1 P2 P3 P4 P5 P6 P7 h0 h1 h2 h3 h4 h5 h6 h7 h8 h9 h10 h11 h12 h13 h14 h15 h16 h17 h18 h19 h20 h21 h22 h23 h24 h25 h26 h27 h28 h29 h30 h31 h32 h33 h34 h35 h36 h37 h38 h39 h40 h41 h42 h43 h44 h45 h46 h47 h48 =>
  (conj (expr_mind P0 P1 P2 P3 P4 P5 P6 P7 h0 h1 h2 h3 h4 h5 h6 h7 h8 h9 h10 h11 h12 h13 h14 h15 h16 h17 h18 h19 h20 h21 h22 h23 h24 h25 h26 h27 h28 h29 h30 h31 h32 h33 h34 h35 h36 h37 h38 h39 h40 h41 h42 h43 h44 h45 h46 h47 h48)
  (conj (inst_mind P0 P1 P2 P3 P4 P5 P6 P7 h0 h1 h2 h3 h4 h5 h6 h7 h8 h9 h10 h11 h12 h13 h14 h15 h16 h17 h18 h19 h20 h21 h22 h23 h24 h25 h26 h27 h28 h29 h30 h31 h32 h33 h34 h35 h36 h37 h38 h39 h40 h41 h42 h43 h44 h45 h46 h47 h48)
  (conj (ty_mind P0 P1 P2 P3 P4 P5 P6 P7 h0 h1 h2 h3 h4 h5 h6 h7 h8 h9 h10 h11 h12 h13 h14 h15 h16 h17 h18 h19 h20 h21 h22 h23 h24 h25 h26 h27 h28 h29 h30 h31 h32 h33 h34 h35 h36 h37 h38 h39 h40 h41 h42 h43 h44 h45 h46 h47 h48)
  (conj (cases_mind P0 P1 P2 P3 P4 P5 P6 P7 h0 h1 h2 h3 h4 h5 h6 h7 h8 h9 h10 h11 h12 h13 h14 h15 h16 h17 h18 h19 h20 h21 h22 h23 h24 h25 h26 h27 h28 h29 h30 h31 h32 h33 h34 h35 h36 h37 h38 h39 h40 h41 h42 h43 h44 h45 h46 h47 h48)
  (conj (key_mind P4 h39 h40 h41)
  (conj (rep_mind P0 P1 P2 P3 P4 P5 P6 P7 h0 h1 h2 h3 h4 h5 h6 h7 h8 h9 h10 h11 h12 h13 h14 h15 h16 h17 h18 h19 h20 h21 h22 h23 h24 h25 h26 h27 h28 h29 h30 h31 h32 h33 h34 h35 h36 h37 h38 h39 h40 h41 h42 h43 h44 h45 h46 h47 h48)
  (conj (attr_list_mind P0 P1 P2 P3 P4 P5 P6 P7 h0 h1 h2 h3 h4 h5 h6 h7 h8 h9 h10 h11 h12 h13 h14 h15 h16 h17 h18 h19 h20 h21 h22 h23 h24 h25 h26 h27 h28 h29 h30 h31 h32 h33 h34 h35 h36 h37 h38 h39 h40 h41 h42 h43 h44 h45 h46 h47 h48)
  (typ_mind P0 P1 P2 P3 P4 P5 P6 P7 h0 h1 h2 h3 h4 h5 h6 h7 h8 h9 h10 h11 h12 h13 h14 h15 h16 h17 h18 h19 h20 h21 h22 h23 h24 h25 h26 h27 h28 h29 h30 h31 h32 h33 h34 h35 h36 h37 h38 h39 h40 h41 h42 h43 h44 h45 h46 h47 h48)))))))).

(** ** The stream: the buffered bits are a number below 2^(bits left) *)
Definition wf (s : stream) : Prop := 0 <= s_left s < 8 /\ 0 <= s_bits s < 2 ^ s_left s.
Definition givesM {A} (m : M A) (Q : A -> Prop) : Prop := forall s, wf s -> match m s with (Ok a, s') => wf s' /\ Q a | _ => True end.
Lemma gm_ret {A} (a : A) (Q : A -> Prop) : Q a -> givesM (ret a) Q. Proof. intros H s W. now split. Qed.
Lemma gm_fail {A} e (Q : A -> Prop) : givesM (fail e) Q. Proof. intros s W. exact I. Qed.
Lemma gm_bind {A B} (m : M A) (k : A -> M B) P Q : givesM m P -> (forall a, P a -> givesM (k a) Q) -> givesM (bind m k) Q.
Proof.
  intros H1 H2 s W. unfold bind. specialize (H1 s W). destruct (m s) as [[a|e] s1]; [|exact I]. destruct H1 as [W1 Pa]. exact (H2 a Pa s1 W1).
Qed.
Lemma gm_weaken {A} (m : M A) (P Q : A -> Prop) : (forall a, P a -> Q a) -> givesM m P -> givesM m Q.
Proof. intros I H s W. specialize (H s W). destruct (m s) as [[a|e] s']; [|exact H]. destruct H. auto. Qed.
Lemma wf_align s : wf (align_state s). Proof. split; cbn [align_state s_left s_bits]; lia. Qed.
Lemma wf_auto rt s : wf s -> wf (auto_align rt s). Proof. destruct rt; [auto|intros _; apply wf_align]. Qed.
Lemma gm_raw n : givesM (raw_read_bytes n) (fun x => blen x = n).
Proof.
  intros s W. unfold raw_read_bytes. destruct (Z.ltb_spec n 0); [exact I|]. unfold io_read. cbv beta iota zeta.
  set (rest := skipn (s_pos s) (s_buf s)). set (g := if _ <=? n then _ else _). destruct (Z.ltb_spec (blen g) n); [exact I|]. split; [exact W|].
  assert (blen g <= n); [|lia]. unfold g. destruct (Z.leb_spec (blen rest) n); [assumption|]. unfold blen. rewrite firstn_length. lia.
Qed.
Lemma gm_bytes rt n : givesM (read_bytes rt n) (fun x => blen x = n).
Proof. intros s W. unfold read_bytes. exact (gm_raw n _ (wf_auto rt s W)). Qed.
Lemma be_int_range l : 0 <= be_int l < 2 ^ (8 * blen l).
Proof.
  induction l as [|x l IH] using rev_ind; [cbn; lia|]. rewrite be_int_app. assert (Hb : blen (l ++ [x]) = blen l + 1) by (unfold blen; rewrite app_length; cbn [List.length]; lia). rewrite Hb.
  replace (8 * (blen l + 1)) with (8 * blen l + 8) by lia. rewrite Z.pow_add_r by (unfold blen; lia). pose proof (bz_range x). change (2 ^ 8) with 256. lia.
Qed.
Lemma le_int_range l : 0 <= le_int l < 2 ^ (8 * blen l).
Proof.
  induction l as [|x l IH]; [cbn; lia|]. cbn [le_int]. replace (8 * blen (x :: l)) with (8 + 8 * blen l) by (unfold blen; cbn [List.length]; lia).
  rewrite Z.pow_add_r by (unfold blen; lia). pose proof (bz_range x). change (2 ^ 8) with 256. lia.
Qed.
Lemma gm_bits n : givesM (read_bits n) (fun z => 0 <= z < 2 ^ Z.max 0 n).
Proof.
  intros s [W1 W2]. unfold read_bits. cbv zeta. set (need := n - s_left s). set (left := (- need) mod 8).
  assert (Hl : 0 <= left < 8) by (unfold left; apply Z.mod_pos_bound; lia).
  assert (Low : forall x, 0 <= Z.land x (Z.shiftl 1 left - 1) < 2 ^ left).
  { intros x. rewrite Z.shiftl_1_l. replace (2 ^ left - 1) with (Z.ones left) by (rewrite Z.ones_equiv; unfold Z.pred; ring). rewrite Z.land_ones by lia. apply Z.mod_pos_bound. apply Z.pow_pos_nonneg; lia. }
  destruct (Z.ltb_spec 0 need) as [H|H].
  - set (s1 := {| s_buf := s_buf s; s_pos := s_pos s; s_bits := s_bits s; s_left := left |}).
    pose proof (fun X => gm_raw ((need - 1) / 8 + 1) s1 X) as R. clear R.
    unfold raw_read_bytes. destruct ((need - 1) / 8 + 1 <? 0); [exact I|]. unfold io_read. cbv beta iota zeta.
    set (g := if _ <=? (need - 1) / 8 + 1 then _ else _). destruct (Z.ltb_spec (blen g) ((need - 1) / 8 + 1)) as [|G]; [exact I|].
    assert (Gl : blen g = (need - 1) / 8 + 1).
    { assert (blen g <= (need - 1) / 8 + 1); [|lia]. unfold g. destruct (Z.leb_spec (blen (skipn (s_pos s1) (s_buf s1))) ((need - 1) / 8 + 1)); [assumption|]. pose proof (Z.div_pos (need - 1) 8 ltac:(lia) ltac:(lia)). unfold blen. rewrite firstn_length. lia. }
    split; [split; cbn [s_left s_bits]; [exact Hl|apply Low]|].
    assert (E : 8 * blen g = need + left).
    { rewrite Gl. unfold left. pose proof (Z.div_mod (need - 1) 8 ltac:(lia)). pose proof (Z.div_mod (- need) 8 ltac:(lia)).
      pose proof (Z.mod_pos_bound (need - 1) 8 ltac:(lia)). pose proof (Z.mod_pos_bound (- need) 8 ltac:(lia)). lia. }
    pose proof (be_int_range g) as Gr. rewrite E, Z.pow_add_r in Gr by lia.
    assert (A : 0 <= Z.shiftr (be_int g) left < 2 ^ need).
    { rewrite Z.shiftr_div_pow2 by lia. split; [apply Z.div_pos; [lia|apply Z.pow_pos_nonneg; lia]|]. apply Z.div_lt_upper_bound; [apply Z.pow_pos_nonneg; lia|]. lia. }
    assert (Bq : 0 <= Z.shiftl (s_bits s) need /\ Z.shiftl (s_bits s) need <= 2 ^ n - 2 ^ need).
    { rewrite Z.shiftl_mul_pow2 by lia. pose proof (Z.pow_pos_nonneg 2 need ltac:(lia) ltac:(lia)). split; [nia|].
      replace n with (s_left s + need) by (unfold need; lia). rewrite Z.pow_add_r by lia. nia. }
    replace (Z.max 0 n) with n by (unfold need in *; lia).
    replace (Z.lor (Z.shiftr (be_int g) left) (Z.shiftl (s_bits s) need)) with (Z.shiftr (be_int g) left + Z.shiftl (s_bits s) need); [lia|].
    rewrite <- Z.lxor_lor, <- Z.add_nocarry_lxor; [reflexivity|..].
    all: apply Z.bits_inj'; intros k Hk; rewrite Z.land_spec, Z.bits_0, Z.shiftl_spec by lia; apply andb_false_iff.
    all: destruct (Z.ltb_spec k need) as [Kn|Kn]; [right; apply Z.testbit_neg_r; lia|left].
    all: destruct (Z.eq_dec (Z.shiftr (be_int g) left) 0) as [->|Nz]; [apply Z.bits_0|]; apply Z.bits_above_log2; [lia|]; apply Z.log2_lt_pow2; [lia|]; apply Z.lt_le_trans with (2 ^ need); [lia|apply Z.pow_le_mono_r; lia].
  - split; [split; cbn [s_left s_bits]; [exact Hl|apply Low]|]. rewrite Z.shiftr_div_pow2 by lia. split; [apply Z.div_pos; [lia|apply Z.pow_pos_nonneg; lia]|].
    apply Z.div_lt_upper_bound; [apply Z.pow_pos_nonneg; lia|]. rewrite <- Z.pow_add_r by lia. apply Z.lt_le_trans with (2 ^ s_left s); [lia|]. apply Z.pow_le_mono_r; lia.
Qed.
Lemma gm_flag : givesM vflag (fun v => exists b, v = VBool b).
Proof. unfold vflag, read_flag. apply gm_bind with (P := fun _ => True); [eapply gm_bind; [apply gm_bits|intros; now apply gm_ret]|]. intros b _. apply gm_ret. eauto. Qed.
Lemma gm_number rt f : givesM (number rt f) (fun z => fst (range f) <= z < snd (range f)).
Proof.
  destruct f; cbn [number range fst snd].
  1-3: eapply gm_bind; [apply gm_bytes|]; cbv beta; intros x Hx; apply gm_ret; pose proof (be_int_range x) as R; rewrite Hx in R; exact R.
  1-2: eapply gm_bind; [apply gm_bytes|]; cbv beta; intros x Hx; apply gm_ret; pose proof (le_int_range x) as R; rewrite Hx in R; exact R.
  eapply gm_bind; [apply gm_bytes|]. cbv beta. intros x Hx. apply gm_ret. pose proof (be_int_range x) as R. rewrite Hx in R. change (2 ^ (8 * 2)) with 65536 in R. change (2 ^ 15) with 32768.
  cbv zeta. destruct (Z.ltb_spec (be_int x) 32768); lia.
Qed.
Lemma en_find_in l z m : en_find l z = Some m -> In (z, m) l.
Proof. induction l as [|[c n] l IH]; [discriminate|]. cbn [en_find]. destruct (Z.eqb_spec z c); [intros E; left; congruence|right; auto]. Qed.
Lemma en_find_none l z : en_find l z = None -> ~ In z (map fst l).
Proof. induction l as [|[c n] l IH]; [auto|]. cbn [en_find map fst In]. destruct (Z.eqb_spec z c); [discriminate|]. intros E [H|H]; [congruence|]. now apply IH. Qed.
Lemma gm_enum en m lo hi : givesM m (fun z => lo <= z < hi) -> givesM (as_enum en m) (number_or_member en lo hi).
Proof.
  intros H. destruct en as [E|]; cbn [as_enum number_or_member].
  - eapply gm_bind; [exact H|]. cbv beta. intros z Hz. apply gm_ret. unfold resolve_enum. destruct (en_find (en_members E) z) as [n|] eqn:F.
    + left. exists n, z. split; [reflexivity|]. split; [now apply en_find_in|exact Hz].
    + right. exists z. split; [reflexivity|]. split; [now apply en_find_none|exact Hz].
  - eapply gm_bind; [exact H|]. cbv beta. intros z Hz. apply gm_ret. exists z. now split.
Qed.

(** ** The objects under construction *)
Definition kept (fs fs' : frames) : Prop := exists more, map public fs' = map public fs ++ more.
Lemma kept_refl fs : kept fs fs. Proof. exists []. now rewrite app_nil_r. Qed.
Lemma kept_trans a b c : kept a b -> kept b c -> kept a c.
Proof. intros [m1 E1] [m2 E2]. exists (m1 ++ m2). now rewrite E2, E1, app_assoc. Qed.
Lemma kept_cons a fs fs' : kept (a :: fs) fs' -> exists a' fs1, fs' = a' :: fs1 /\ public a' = public a /\ kept fs fs1.
Proof.
  intros [m E]. destruct fs' as [|a' fs1]; cbn [map app] in E; [discriminate|]. exists a', fs1. split; [reflexivity|].
  assert (public a' = public a /\ map public fs1 = map public fs ++ m) as [E1 E2] by (split; congruence). split; [exact E1|]. now exists m.
Qed.
Lemma public_app a b : public (a ++ b) = public a ++ public b. Proof. unfold public. apply filter_app. Qed.
Lemma kept_put x v fs : is_cache x = true -> kept fs ((hd [] fs ++ [(x, v)]) :: tl fs).
Proof.
  intros H. destruct fs as [|a fs]; cbn [hd tl]; [exists [public [(x, v)]]; reflexivity|].
  exists []. cbn [map]. rewrite app_nil_r, public_app. unfold public at 2. cbn [filter fst]. rewrite H. cbn [negb]. now rewrite app_nil_r.
Qed.
Lemma cache_name x : is_cache ("_m_" ++ x) = true.
Proof. unfold is_cache. cbn. destruct x; reflexivity. Qed.

Definition gives {A} (m : K A) (Q : A -> Prop) : Prop := forall fs s, wf s -> match m fs s with (Ok (a, fs'), s') => wf s' /\ kept fs fs' /\ Q a | _ => True end.
Lemma g_ret {A} (a : A) (Q : A -> Prop) : Q a -> gives (kret a) Q.
Proof. intros H fs s W. split; [exact W|]. split; [apply kept_refl|exact H]. Qed.
Lemma g_fail {A} e (Q : A -> Prop) : gives (fun _ => fail e) Q. Proof. intros fs s W. exact I. Qed.
Lemma g_bind {A B} (m : K A) (k : A -> K B) P Q : gives m P -> (forall a, P a -> gives (k a) Q) -> gives (kbind m k) Q.
Proof.
  intros H1 H2 fs s W. unfold kbind, bind. specialize (H1 fs s W). destruct (m fs s) as [[[a fs1]|e] s1]; [|exact I]. destruct H1 as [W1 [K1 Pa]]. cbn [fst snd].
  specialize (H2 a Pa fs1 s1 W1). destruct (k a fs1 s1) as [[[b fs2]|e] s2]; [|exact I]. destruct H2 as [W2 [K2 Q2]]. split; [exact W2|]. split; [now apply kept_trans with fs1|exact Q2].
Qed.
Lemma g_weaken {A} (m : K A) (P Q : A -> Prop) : (forall a, P a -> Q a) -> gives m P -> gives m Q.
Proof. intros I H fs s W. specialize (H fs s W). destruct (m fs s) as [[[a fs']|e] s']; [|exact H]. destruct H as [? [? ?]]. auto. Qed.
Lemma g_io {A} (m : M A) Q : givesM m Q -> gives (io m) Q.
Proof. intros H fs s W. unfold io, bind. specialize (H s W). destruct (m s) as [[a|e] s']; [|exact I]. destruct H. split; [assumption|]. split; [apply kept_refl|assumption]. Qed.
Definition any {A} (_ : A) := True.
Lemma gm_any_same {A} (f : stream -> res A) : givesM (fun s => (f s, s)) any.
Proof. intros s W. destruct (f s); [now split|exact I]. Qed.
Lemma gm_eof rt : givesM (is_eof rt) any.
Proof.
  intros s W. unfold is_eof. destruct (0 <? s_left s); [now split|]. destruct rt; [|now split]. unfold io_read. cbv beta iota zeta.
  set (g := if _ <=? 1 then _ else _). destruct g; now split.
Qed.
Lemma gm_seek rt n : givesM (io_seek rt n) any. Proof. intros s W. split; [|exact I]. pose proof (wf_auto rt s W) as W'. exact W'. Qed.
Lemma gm_size : givesM io_size any. Proof. intros s W. now split. Qed.
Lemma gm_pos : givesM io_pos any. Proof. intros s W. now split. Qed.
Lemma g_get sc x : gives (get sc x) any.
Proof. intros fs s W. unfold get. destruct (lookup x _); [|exact I]. split; [exact W|]. split; [apply kept_refl|exact I]. Qed.
Lemma g_put x v : is_cache x = true -> gives (put x v) any.
Proof. intros H fs s W. split; [exact W|]. split; [now apply kept_put|exact I]. Qed.
Lemma g_need_int v : gives (need_int v) (fun z => v = VInt z).
Proof. intros fs s W. destruct v; try exact I. split; [exact W|]. split; [apply kept_refl|reflexivity]. Qed.
Lemma g_need_bool v : gives (need_bool v) (fun b => v = VBool b).
Proof. intros fs s W. destruct v; try exact I. split; [exact W|]. split; [apply kept_refl|reflexivity]. Qed.
Lemma g_need_str v : gives (need_str v) any.
Proof. intros fs s W. destruct v; try exact I. split; [exact W|]. split; [apply kept_refl|exact I]. Qed.
Lemma g_present (P : pyval -> Prop) v : (forall x, v = Some x -> P x) -> gives (present v) P.
Proof. intros H fs s W. destruct v; [|exact I]. split; [exact W|]. split; [apply kept_refl|now apply H]. Qed.
Lemma kept_outer sc fs fs' : kept (outer sc fs) fs' -> kept fs (inner sc fs ++ fs').
Proof.
  intros [m E]. destruct sc; cbn [outer inner] in *.
  - exists m. exact E.
  - exists m. rewrite map_app, E. destruct fs as [|a fs]; reflexivity.
  - destruct fs as [|a fs]; [exists (map public fs'); reflexivity|]. exists m. rewrite map_app, E, app_assoc. f_equal.
    rewrite <- map_app. f_equal. symmetry. apply (app_removelast_last [] (l := a :: fs)). discriminate.
Qed.

Section Induction.
Context (rt : runtime).
Definition opt_typed en t (o : option pyval) : Prop :=
  ty_names t = true -> match o with Some v => typed en t v | None => can_be_left_out t = true end.
Definition Pe (e : expr) : Prop := forall item, gives (eval rt e item) any.
Definition Pi (i : inst) : Prop := gives (run_inst rt i) any.
Definition Pty (t : ty) : Prop := forall loc en, gives (run_ty rt loc en t) (opt_typed en t).
Definition Pcs (cs : cases) : Prop := forall loc en v, gives (run_cases rt loc en v cs)
  (fun o => cases_names cs = true -> match o with Some v => one_of en cs v | None => cases_left_out cs = true end).
Definition Pk (_ : key) : Prop := True.
Definition Pr (r : rep) : Prop := forall one en t, gives one (opt_typed en t) ->
  gives (run_rep rt one r) (fun o => ty_names t = true -> match o with Some v => occurs r en t v | None => r = Once /\ can_be_left_out t = true end).
Definition Pq (q : attr_list) : Prop := forall path i after a fs s, wf s ->
  match run_attrs rt path i after q (a :: fs) s with
  | (Ok (_, fs'), s') => wf s' /\ exists a' fs1 new, fs' = a' :: fs1 /\ kept fs fs1 /\ public a' = public a ++ new /\ (seq_names q = true -> has_attributes q new)
  | _ => True
  end.
Definition Pt (t : typ) : Prop := gives (run_typ rt t) (fun v => typ_names t = true -> object_of t v).

Lemma gives_any {A} (m : K A) P : gives m P -> gives m any. Proof. apply g_weaken. intros; exact I. Qed.
Lemma any_bind {A B} (m : K A) (k : A -> K B) Q : gives m any -> (forall a, gives (k a) Q) -> gives (kbind m k) Q.
Proof. intros H1 H2. eapply g_bind; [exact H1|]. intros a _. apply H2. Qed.
Lemma any_int v (k : Z -> K pyval) : (forall z, gives (k z) any) -> gives (kbind (need_int v) k) any.
Proof. intros H. eapply g_bind; [apply g_need_int|]. intros a _. apply H. Qed.
Lemma loop_typed (one : K (option pyval)) en t : gives one (opt_typed en t) -> gives (v <~ one;; present v) (fun v => ty_names t = true -> typed en t v).
Proof. intros H. eapply g_bind; [exact H|]. intros o Ho. apply g_present. intros x -> N. exact (Ho N). Qed.
Lemma times_typed body en t n : gives body (fun v => ty_names t = true -> typed en t v) -> gives (times body n) (fun l => ty_names t = true -> all_typed en t l).
Proof.
  intros H. induction n as [|n IH]; cbn [times]; [apply g_ret; constructor|]. eapply g_bind; [exact H|]. intros v Hv. eapply g_bind; [exact IH|]. intros l Hl.
  apply g_ret. intros N. constructor; auto.
Qed.
Lemma eof_typed body en t n : gives body (fun v => ty_names t = true -> typed en t v) -> gives (until_eof rt body n) (fun l => ty_names t = true -> all_typed en t l).
Proof.
  intros H. induction n as [|n IH]; cbn [until_eof]; [apply g_fail|]. apply any_bind; [apply g_io, gm_eof|]. intros [|]; [apply g_ret; constructor|].
  eapply g_bind; [exact H|]. intros v Hv. eapply g_bind; [exact IH|]. intros l Hl. apply g_ret. intros N. constructor; auto.
Qed.
Lemma until_typed body stop en t n : gives body (fun v => ty_names t = true -> typed en t v) -> (forall v, gives (stop v) any) ->
  gives (until body stop n) (fun l => ty_names t = true -> all_typed en t l).
Proof.
  intros H Hs. induction n as [|n IH]; cbn [until]; [apply g_fail|]. eapply g_bind; [exact H|]. intros v Hv. apply any_bind; [apply Hs|].
  intros [|]; [apply g_ret; intros N; constructor; [auto|constructor]|]. eapply g_bind; [exact IH|]. intros l Hl. apply g_ret. intros N. constructor; auto.
Qed.
Lemma turns_gives {A} (loop : nat -> K A) Q : (forall n, gives (loop n) Q) -> gives (turns loop) Q.
Proof. intros H fs s W. unfold turns. now apply H. Qed.

Lemma g_need_int_any v : gives (need_int v) any. Proof. exact (gives_any _ _ (g_need_int v)). Qed.
Lemma g_need_bool_any v : gives (need_bool v) any. Proof. exact (gives_any _ _ (g_need_bool v)). Qed.
Lemma const_size e : (forall item, gives (eval rt e item) any) -> gives (eval rt e VNone) (fun v => forall n, e = EInt n -> v = VInt n).
Proof.
  intros H. destruct e; try (eapply g_weaken; [|apply H]; intros; discriminate). cbn [eval]. apply g_ret. congruence.
Qed.
Lemma g_lift {A} (r : res A) : gives (io (lift r)) any.
Proof. apply g_io. intros s W. unfold lift. destruct r; [now split|exact I]. Qed.
Lemma gm_str c n : givesM (vstr rt c n) (fun v => exists x, v = VStr x).
Proof.
  unfold vstr, read_str. apply gm_bind with (P := any); [apply gm_bind with (P := any)|].
  - eapply gm_weaken; [|apply gm_bytes]. intros; exact I.
  - intros x _ s W. unfold lift. destruct (py_decode c x); [now split|exact I].
  - intros x _. apply gm_ret. eauto.
Qed.
Lemma gm_full : givesM (read_bytes_full rt) any.
Proof. intros s W. unfold read_bytes_full. cbv zeta. pose proof (wf_auto rt s W). now split. Qed.
Lemma gm_str_full c : givesM (vstr_full rt c) (fun v => exists x, v = VStr x).
Proof.
  unfold vstr_full. apply gm_bind with (P := any); [apply gm_full|]. intros x _. apply gm_bind with (P := any); [|intros; apply gm_ret; eauto].
  intros s W. unfold lift. destruct (py_decode c x); [now split|exact I].
Qed.
Lemma gm_expect x loc : givesM (expect_bytes rt x loc) (fun v => v = VBytes x).
Proof.
  unfold expect_bytes. eapply gm_bind; [apply gm_bytes|]. intros y _. destruct (bytes_eqb y x) eqn:E; [|apply gm_fail]. apply gm_ret. apply bytes_eqb_true in E. now subst.
Qed.
Lemma g_stream_of {A} n (m : K A) Q : gives m Q -> gives (fun fs => substream rt n (m fs)) Q.
Proof.
  intros H fs s W. unfold substream. pose proof (gm_bytes rt n s W) as R. destruct (read_bytes rt n s) as [[x|e] s']; [|exact I]. destruct R as [W' _].
  assert (W0 : wf (stream_of x)) by (split; cbn; lia). specialize (H fs (stream_of x) W0). destruct (m fs (stream_of x)) as [[[a fs']|e] s2]; [|exact I]. cbn [fst].
  destruct H as [_ [Kp Qa]]. auto.
Qed.

Ltac gk := repeat first
  [ assumption
  | match goal with H : forall _, gives _ any |- gives _ any => apply H end
  | apply g_need_int_any | apply g_need_bool_any | apply g_need_str | apply g_lift | apply g_get
  | apply g_io; first [apply gm_eof | apply gm_seek | apply gm_size | apply gm_pos]
  | apply g_ret; exact I | apply g_fail
  | apply any_bind; [|intros ?]
  | match goal with |- gives (if ?c then _ else _) any => destruct c end ].

Lemma g_cached x (m : K pyval) : gives m any -> gives (fun fs => match lookup x (hd [] fs) with Some v => ret (v, fs) | None => m fs end) any.
Proof. intros H fs s W. destruct (lookup x (hd [] fs)); [split; [exact W|]; split; [apply kept_refl|exact I]|exact (H fs s W)]. Qed.
Lemma g_dot x o : gives (fun fs => match getattr x o with Some v => ret (v, fs) | None => fail (AttributeError x) end) any.
Proof. intros fs s W. destruct (getattr x o); [|exact I]. split; [exact W|]. split; [apply kept_refl|exact I]. Qed.
Lemma g_decode c a : gives (fun fs => match a with VBytes x => s <- lift (py_decode c x);; ret (VStr s, fs) | _ => fail TypeError end) any.
Proof.
  intros fs s W. destruct a; try exact I. unfold bind, lift. match goal with |- context [py_decode c ?y] => destruct (py_decode c y) end; [|exact I]. split; [exact W|]. split; [apply kept_refl|exact I].
Qed.
Lemma g_inst sc (m : K pyval) : gives m any -> gives (fun fs => r <- m (outer sc fs);; ret (fst r, inner sc fs ++ snd r)) any.
Proof.
  intros H fs s W. unfold bind. specialize (H (outer sc fs) s W). destruct (m (outer sc fs) s) as [[[v fs']|e] s']; [|exact I]. destruct H as [W' [Kp _]].
  split; [exact W'|]. split; [now apply kept_outer|exact I].
Qed.
Lemma g_some en t (m : M pyval) Q : givesM m Q -> (forall v, Q v -> ty_names t = true -> typed en t v) -> gives (v <~ io m;; kret (Some v)) (opt_typed en t).
Proof. intros H HQ. eapply g_bind; [apply g_io; exact H|]. intros v Hv. apply g_ret. intros N. now apply HQ. Qed.

Lemma const_true e : (forall item, gives (eval rt e item) any) -> gives (eval rt e VNone) (fun v => e = ETrue -> v = VBool true).
Proof.
  intros H. destruct e; try (eapply g_weaken; [|apply H]; intros; discriminate). cbn [eval]. apply g_ret. reflexivity.
Qed.
Lemma all_keep : (forall e, Pe e) /\ (forall i, Pi i) /\ (forall t, Pty t) /\ (forall cs, Pcs cs) /\ (forall k, Pk k) /\ (forall r, Pr r) /\ (forall q, Pq q) /\ (forall t, Pt t).
Proof.
  apply (ksy_mind Pe Pi Pty Pcs Pk Pr Pq Pt); unfold Pe, Pi, Pty, Pcs, Pk, Pr, Pq, Pt.
  (* expressions *)
  - intros item. apply g_ret; exact I.
  - intros z item. apply g_ret; exact I.
  - intros s item. apply g_ret; exact I.
  - intros sc x item. apply g_get.
  - intros e IH x item. cbn [eval]. apply any_bind; [apply IH|]. intros o. apply g_dot.
  - intros item. apply g_ret; exact I.
  - intros item. cbn [eval]. gk.
  - intros item. cbn [eval]. gk.
  - intros item. cbn [eval]. gk.
  - intros e IH E m item. cbn [eval]. gk.
  - intros e IH s item. cbn [eval]. gk.
  - intros e IH item. cbn [eval]. gk.
  - intros a IHa b IHb item. cbn [eval]. apply any_bind; [apply IHa|]. intros v. gk.
  - intros a IHa b IHb item. cbn [eval]. apply any_bind; [apply IHa|]. intros v. gk.
  - intros o a IHa b IHb item. cbn [eval]. apply any_bind; [apply IHa|]. intros v. apply any_bind; [gk|]. intros y. apply any_bind; [apply IHb|]. intros w. gk.
  - intros c IHc a IHa b IHb item. cbn [eval]. apply any_bind; [apply IHc|]. intros v. apply any_bind; [gk|]. intros [|]; [apply IHa|apply IHb].
  - intros e IH item. cbn [eval]. gk.
  - intros e IH item. cbn [eval]. gk.
  - intros a IHa b IHb item. cbn [eval]. apply any_bind; [apply IHa|]. intros v. apply any_bind; [gk|]. intros y. apply any_bind; [apply IHb|]. intros w. gk.
  - intros e IH c item. cbn [eval]. apply any_bind; [apply IH|]. intros o. apply g_decode.
  - intros sc i IH item. exact (g_inst sc _ IH).
  (* instances *)
  - intros x e IH. apply (g_cached ("_m_" ++ x) (v <~ eval rt e VNone;; _ <~ put ("_m_" ++ x) v;; kret v)).
    apply any_bind; [apply IH|]. intros v. apply any_bind; [apply g_put, cache_name|]. intros. gk.
  - intros x c IHc p IHp en t IHt. apply (g_cached ("_m_" ++ x) (c <~ eval rt c VNone;; c <~ need_bool c;;
           if (c : bool) then
             back <~ io io_pos;; p <~ eval rt p VNone;; p <~ need_int p;; _ <~ io (io_seek rt p);;
             v <~ run_ty rt "" en t;; v <~ present v;; _ <~ io (io_seek rt back);; _ <~ put ("_m_" ++ x) v;; kret v
           else kret VNone)).
    apply any_bind; [apply IHc|]. intros v. apply any_bind; [gk|]. intros [|]; [|gk]. apply any_bind; [gk|]. intros back. apply any_bind; [apply IHp|]. intros q. apply any_bind; [gk|]. intros z.
    apply any_bind; [gk|]. intros _. apply any_bind; [eapply gives_any, IHt|]. intros w. apply any_bind; [apply g_present; intros; exact I|]. intros u. apply any_bind; [gk|]. intros _.
    apply any_bind; [apply g_put, cache_name|]. intros _. gk.
  (* types *)
  - intros n loc en. cbn [run_ty]. eapply g_some; [apply gm_enum, gm_bits|]. intros v Hv _. now constructor.
  - intros loc en. cbn [run_ty]. eapply g_some; [apply gm_flag|]. intros v [b ->] _. constructor.
  - intros f loc en. cbn [run_ty]. eapply g_some; [apply gm_enum, gm_number|]. intros v Hv _. now constructor.
  - intros e IH loc en. change (gives (n <~ eval rt e VNone;; n <~ need_int n;; v <~ io (vbytes rt n);; kret (Some v)) (opt_typed en (TBytes e))).
    eapply g_bind; [apply (const_size e IH)|]. intros v Hv. eapply g_bind; [apply g_need_int|]. intros n Hn.
    eapply g_some with (Q := fun w => exists x, w = VBytes x /\ blen x = n).
    + unfold vbytes. eapply gm_bind; [apply gm_bytes|]. intros x Hx. apply gm_ret. eauto.
    + intros w [x [-> Hx]] _. constructor. intros m Hm. specialize (Hv m Hm). congruence.
  - intros loc en. cbn [run_ty]. eapply g_some with (Q := fun w => exists x, w = VBytes x).
    + unfold vfull. eapply gm_bind; [apply gm_full|]. intros x _. apply gm_ret. eauto.
    + intros v [x ->] _. constructor.
  - intros c e IH loc en. change (gives (n <~ eval rt e VNone;; n <~ need_int n;; v <~ io (vstr rt c n);; kret (Some v)) (opt_typed en (TStr c e))).
    apply any_bind; [apply IH|]. intros v. apply any_bind; [gk|]. intros n. eapply g_some; [apply gm_str|]. intros w [x ->] _. constructor.
  - intros c loc en. cbn [run_ty]. eapply g_some; [apply gm_str_full|]. intros w [x ->] _. constructor.
  - intros x loc en. cbn [run_ty]. eapply g_some; [apply gm_expect|]. intros w -> _. constructor.
  - intros t IH z loc en. cbn [run_ty]. eapply g_bind; [apply IH|]. intros o Ho. eapply g_bind; [apply (g_present (fun v => o = Some v)); auto|]. intros v Hv. cbv beta in Hv. subst o.
    eapply g_bind; [apply g_need_int|]. intros n Hn. cbv beta in Hn. subst v. destruct (Z.eqb_spec n z) as [->|_]; [|apply g_fail]. apply g_ret. intros N. constructor. exact (Ho N).
  - intros t IH loc en fs s W. change (match (r <- run_typ rt t [];; ret (Some (fst r), fs)) s with (Ok (a, fs'), s') => wf s' /\ kept fs fs' /\ opt_typed en (TImported t) a | _ => True end).
    unfold bind. specialize (IH [] s W). destruct (run_typ rt t [] s) as [[[v f]|e] s']; [|exact I]. destruct IH as [W' [_ Q]]. split; [exact W'|]. split; [apply kept_refl|]. intros N. constructor. exact (Q N).
  - intros t IH loc en. change (gives (v <~ run_typ rt t;; kret (Some v)) (opt_typed en (TLocal t))). eapply g_bind; [apply IH|]. intros v Hv. apply g_ret. intros N. constructor. exact (Hv N).
  - intros e IHe t IHt loc en. change (gives (n <~ eval rt e VNone;; n <~ need_int n;; fun fs => substream rt n (run_ty rt loc en t fs)) (opt_typed en (TSized e t))).
    apply any_bind; [apply IHe|]. intros v. apply any_bind; [gk|]. intros n. apply g_stream_of. eapply g_weaken; [|apply IHt]. intros o Ho N. specialize (Ho N). destruct o; [now constructor|exact Ho].
  - intros e IHe cs IHc loc en. change (gives (v <~ eval rt e VNone;; run_cases rt loc en v cs) (opt_typed en (TSwitch e cs))).
    apply any_bind; [apply IHe|]. intros v. eapply g_weaken; [|apply IHc]. intros o Ho N. specialize (Ho N). destruct o; [now constructor|exact Ho].
  (* cases *)
  - intros loc en v. cbn [run_cases]. apply g_ret. reflexivity.
  - intros t IH loc en v. change (gives (run_ty rt loc en t) (fun o => cases_names (CDefault t) = true -> match o with Some v0 => one_of en (CDefault t) v0 | None => cases_left_out (CDefault t) = true end)).
    eapply g_weaken; [|apply IH]. intros o Ho N. specialize (Ho N). destruct o; [now constructor|exact Ho].
  - intros k _ t IHt cs IHc loc en v.
    assert (G1 : gives (run_ty rt loc en t) (fun o => cases_names (CCons k t cs) = true -> match o with Some v0 => one_of en (CCons k t cs) v0 | None => cases_left_out (CCons k t cs) = true end)).
    { eapply g_weaken; [|apply IHt]. intros o Ho N. cbn [cases_names] in N. apply andb_true_iff in N as [N1 N2]. specialize (Ho N1). destruct o; [now constructor|]. cbn [cases_left_out]. now rewrite Ho. }
    assert (G2 : gives (run_cases rt loc en v cs) (fun o => cases_names (CCons k t cs) = true -> match o with Some v0 => one_of en (CCons k t cs) v0 | None => cases_left_out (CCons k t cs) = true end)).
    { eapply g_weaken; [|apply IHc]. intros o Ho N. cbn [cases_names] in N. apply andb_true_iff in N as [N1 N2]. specialize (Ho N2). destruct o; [now apply O_later|]. cbn [cases_left_out]. rewrite Ho. apply orb_true_r. }
    intros fs s W. specialize (G1 fs s W). specialize (G2 fs s W). cbn [run_cases]. match goal with |- context [if ?c then _ else _] => destruct c end; [exact G1|exact G2].
  (* keys *)
  - intros; exact I.
  - intros; exact I.
  - intros; exact I.
  (* repetition *)
  - intros one en t H. cbn [run_rep]. eapply g_weaken; [|exact H]. intros o Ho N. specialize (Ho N). destruct o; [now constructor|now split].
  - intros one en t H. cbn [run_rep]. eapply g_bind; [apply turns_gives; intros n; apply (eof_typed _ en t), loop_typed, H|]. intros l Hl. apply g_ret. intros N. constructor; [discriminate|auto].
  - intros e IH one en t H. change (gives (n <~ eval rt e VNone;; n <~ need_int n;; l <~ times (v <~ one;; present v) (Z.to_nat n);; kret (Some (VList l)))
      (fun o => ty_names t = true -> match o with Some v => occurs (Times e) en t v | None => Times e = Once /\ can_be_left_out t = true end)).
    apply any_bind; [apply IH|]. intros v. apply any_bind; [gk|]. intros n. eapply g_bind; [apply (times_typed _ en t), loop_typed, H|]. intros l Hl. apply g_ret. intros N. constructor; [discriminate|auto].
  - intros e IH one en t H. change (gives (l <~ turns (until (v <~ one;; present v) (fun v => w <~ eval rt e v;; need_bool w));; kret (Some (VList l)))
      (fun o => ty_names t = true -> match o with Some v => occurs (Until e) en t v | None => Until e = Once /\ can_be_left_out t = true end)).
    eapply g_bind; [apply turns_gives; intros n; apply (until_typed _ _ en t); [apply loop_typed, H|intros v; apply any_bind; [apply IH|gk]]|]. intros l Hl. apply g_ret. intros N. constructor; [discriminate|auto].
  (* attributes *)
  - intros path i after a fs s W. cbn [run_attrs]. split; [exact W|]. exists a, fs, []. split; [reflexivity|]. split; [apply kept_refl|]. split; [now rewrite app_nil_r|]. intros _. constructor.
  - intros x c IHc r IHr en t IHt q IHq path i after a fs s W.
    set (A := if after && negb (is_bits t) then io align_to_byte else kret tt).
    assert (GA : gives A any) by (unfold A; destruct (after && negb (is_bits t)); [apply g_io; intros s0 W0; split; [apply wf_align|exact I]|apply g_ret; exact I]).
    change (match (_ <~ A;; c <~ eval rt c VNone;; c <~ need_bool c;;
      _ <~ (if (c : bool) then v <~ run_rep rt (run_ty rt (attr_path path i) en t) r;; match v with Some v => put x v | None => kret tt end else kret tt);;
      run_attrs rt path (S i) (is_bits t) q) (a :: fs) s with
      | (Ok (_, fs'), s') => wf s' /\ exists a' fs1 new, fs' = a' :: fs1 /\ kept fs fs1 /\ public a' = public a ++ new /\ (seq_names (Attr x c r en t q) = true -> has_attributes (Attr x c r en t q) new)
      | _ => True end).
    clearbody A. unfold kbind at 1. unfold bind at 1. specialize (GA (a :: fs) s W). destruct (A (a :: fs) s) as [[[u f1]|e] s1]; [|exact I]. destruct GA as [W1 [K1 _]].
    apply kept_cons in K1 as [a1 [fs1 [-> [P1 K1]]]]. cbn [fst snd]. rewrite <- P1. clear a P1 s W.
    assert (GC : gives (c0 <~ eval rt c VNone;; need_bool c0) (fun b => c = ETrue -> b = true)).
    { eapply g_bind; [apply (const_true c IHc)|]. intros v Hv. eapply g_weaken; [|apply g_need_bool]. intros b Hb E. specialize (Hv E). congruence. }
    specialize (GC (a1 :: fs1) s1 W1). unfold kbind at 1 2. unfold kbind, bind at 1 in GC. unfold bind at 1. destruct (eval rt c VNone (a1 :: fs1) s1) as [[[v f2]|e] s2]; [|exact I]. cbn [fst snd] in *.
    unfold bind at 1. destruct (need_bool v f2 s2) as [[[b f3]|e] s3]; [|exact I]. cbn [fst snd] in *. destruct GC as [W3 [K3 Qb]].
    apply kept_cons in K3 as [a2 [fs2 [-> [P2 K2]]]]. rewrite <- P2. clear a1 P2 s1 W1 v f2 s2. pose proof (kept_trans _ _ _ K1 K2) as K12. clear fs1 K1 K2.
    assert (Rest : forall a3 fs3 new s4, wf s4 -> kept fs fs3 -> public a3 = public a2 ++ new ->
      (ty_names t = true -> is_cache x = false -> (new = [] /\ (c <> ETrue \/ (r = Once /\ can_be_left_out t = true))) \/ (exists w, new = [(x, w)] /\ occurs r en t w)) ->
      match run_attrs rt path (S i) (is_bits t) q (a3 :: fs3) s4 with
      | (Ok (_, fs'), s') => wf s' /\ exists a' fs1 new, fs' = a' :: fs1 /\ kept fs fs1 /\ public a' = public a2 ++ new /\ (seq_names (Attr x c r en t q) = true -> has_attributes (Attr x c r en t q) new)
      | _ => True end).
    { intros a3 fs3 new s4 W4 K4 P4 Hn. specialize (IHq path (S i) (is_bits t) a3 fs3 s4 W4). destruct (run_attrs rt path (S i) (is_bits t) q (a3 :: fs3) s4) as [[[u' f4]|e] s5]; [|exact I].
      destruct IHq as [W5 [a' [fs5 [new' [-> [K5 [P5 Q5]]]]]]]. split; [exact W5|]. exists a', fs5, (new ++ new'). split; [reflexivity|]. split; [now apply kept_trans with fs3|].
      split; [now rewrite P5, P4, app_assoc|]. intros N. cbn [seq_names] in N. apply andb_true_iff in N as [N N2]. apply andb_true_iff in N as [N0 N1]. apply negb_true_iff in N0. specialize (Q5 N2).
      destruct (Hn N1 N0) as [[-> Hc]|[w [-> Hw]]]; cbn [app]; [now apply A_missing|now apply A_present]. }
    unfold kbind at 1, bind at 1. destruct b.
    + specialize (IHr _ en t (IHt (attr_path path i) en) (a2 :: fs2) s3 W3). unfold kbind at 1, bind at 1. destruct (run_rep rt (run_ty rt (attr_path path i) en t) r (a2 :: fs2) s3) as [[[o f4]|e] s4]; [|exact I].
      destruct IHr as [W4 [K4 Qo]]. apply kept_cons in K4 as [a3 [fs3 [-> [P3 K3]]]]. pose proof (kept_trans _ _ _ K12 K3) as K. cbn [fst snd]. destruct o as [w|]; unfold put, kret, ret; cbn [fst snd hd tl].
      * apply (Rest _ _ (public [(x, w)]) _ W4 K); [now rewrite public_app, P3|]. intros N1 N0. right. exists w. split; [unfold public; cbn [filter fst]; now rewrite N0|exact (Qo N1)].
      * apply (Rest _ _ [] _ W4 K); [now rewrite P3, app_nil_r|]. intros N1 N0. left. split; [reflexivity|right; exact (Qo N1)].
    + unfold kret, ret. cbn [fst snd]. apply (Rest _ _ [] _ W3 K12); [now rewrite app_nil_r|]. intros N1 N0. left. split; [reflexivity|left]. intros E. specialize (Qb E). discriminate.
  - intros path q IH fs s W. change (match (r0 <- run_attrs rt path 0 false q ([] :: fs);; ret (VObj (class_name path) (hd [] (snd r0)), tl (snd r0))) s with
      (Ok (v, fs'), s') => wf s' /\ kept fs fs' /\ (typ_names (Typ path q) = true -> object_of (Typ path q) v) | _ => True end).
    unfold bind. specialize (IH path 0%nat false ([] : attrs) fs s W). unfold frames, attrs in *. destruct (run_attrs rt path 0 false q ([] :: fs) s) as [[[u fs']|e] s']; [|exact I].
    destruct IH as [W' [a' [fs1 [new [-> [Kp [Pa Q]]]]]]]. cbn [ret fst snd hd tl]. split; [exact W'|]. split; [exact Kp|]. intros N. constructor. rewrite Pa. exact (Q N).
Qed.
Lemma typ_typed : forall t, Pt t. Proof. apply all_keep. Qed.
Lemma ty_typed : forall t, Pty t. Proof. apply all_keep. Qed.
Lemma cases_typed : forall cs, Pcs cs. Proof. apply all_keep. Qed.
Lemma seq_typed : forall q, Pq q. Proof. apply all_keep. Qed.
End Induction.
