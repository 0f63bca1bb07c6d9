(** C64: the static bound is right for every definition. *)
From Verif Require Import PyBase Runtime Codec CodecSpec CodecProofs RuntimeProofs Ksy KsySchema KsyTyped KsySize.
Open Scope string_scope.
Open Scope list_scope.
Open Scope Z_scope.
Ltac Zify.zify_post_hook ::= Z.div_mod_to_equations.

Definition lsize (l : list pyval) : Z := fold_right (fun w n => size w + n) 0 l.
Definition asize (a : attrs) : Z := fold_right (fun nw n => size (snd nw) + n) 0 a.
Definition fsize (fs : frames) : Z := fold_right (fun a n => asize a + n) 0 fs.
Definition osize (o : option pyval) : Z := match o with Some v => size v | None => 0 end.
Lemma size_pos v : 1 <= size v.
Proof.
  revert v. fix IH 1. intros [|z|b|l|s|c n z|l|c a]; cbn [size]; try lia.
  - assert (0 <= fold_right (fun w n => size w + n) 0 l); [|lia]. induction l as [|w l L]; cbn [fold_right]; [lia|]. pose proof (IH w). lia.
  - assert (0 <= fold_right (fun nw n => size (snd nw) + n) 0 a); [|lia]. induction a as [|[n w] a L]; cbn [fold_right snd]; [lia|]. pose proof (IH w). lia.
Qed.
Lemma asize_nonneg a : 0 <= asize a. Proof. induction a as [|[n w] a L]; cbn [asize fold_right snd]; [lia|]. pose proof (size_pos w). unfold asize in L. lia. Qed.
Lemma fsize_nonneg fs : 0 <= fsize fs. Proof. induction fs as [|a fs L]; cbn [fsize fold_right]; [lia|]. pose proof (asize_nonneg a). unfold fsize in L. lia. Qed.
Lemma asize_app a b : asize (a ++ b) = asize a + asize b.
Proof. induction a as [|[n w] a L]; [reflexivity|]. cbn [app asize fold_right snd]. unfold asize in L. rewrite L. unfold asize. lia. Qed.
Lemma fsize_app a b : fsize (a ++ b) = fsize a + fsize b.
Proof. induction a as [|x a L]; [reflexivity|]. cbn [app fsize fold_right]. unfold fsize in L. rewrite L. unfold fsize. lia. Qed.
Lemma fsize_put x v fs : fsize ((hd [] fs ++ [(x, v)]) :: tl fs) = fsize fs + size v.
Proof. destruct fs as [|a fs]; unfold fsize; cbn [hd tl fold_right]; rewrite asize_app; unfold asize; cbn [fold_right snd]; lia. Qed.

(** A text has at most as many characters as its encoding has bytes. *)
Lemma encode_length e s : forall l, encode_text e s = Some l -> Z.of_nat (List.length s) <= blen l.
Proof.
  induction s as [|c s IH]; intros l; cbn [encode_text List.length]; [intros E; unfold blen; lia|].
  destruct (encode_cp e c) as [x|] eqn:X; [|discriminate]. destruct (encode_text e s) as [y|]; [|discriminate]. intros E. injection E as <-. specialize (IH y eq_refl).
  assert (1 <= blen x); [|unfold blen in *; rewrite app_length; lia].
  unfold encode_cp in X. destruct e; [unfold enc_ascii_cp in X|unfold enc_utf8_cp in X|destruct (units_of c) as [us|] eqn:U; [|discriminate]; unfold units_of in U..].
  all: repeat match type of X with context [if ?b then _ else _] => destruct b end; try discriminate; try (injection X as <-; unfold blen; cbn [List.length]; lia).
  all: repeat match type of U with context [if ?b then _ else _] => destruct b end; try discriminate; injection U as <-; cbn [option_map flat_map unit_le unit_be app] in X; injection X as <-; unfold blen; cbn [List.length]; lia.
Qed.
Lemma decode_length e l s : py_decode e l = Ok s -> Z.of_nat (List.length s) <= blen l.
Proof. unfold py_decode. destruct (decode_text e l) as [t|] eqn:D; [|discriminate]. intros E. injection E as <-. apply decode_encode in D. now apply encode_length in D. Qed.

(** ** Streams *)
Definition good (s : stream) : Prop := 0 <= s_left s < 8 /\ (s_pos s <= List.length (s_buf s))%nat.
(** the bits taken so far *)
Definition taken (s : stream) : Z := 8 * Z.of_nat (s_pos s) - s_left s.
Definition step (a c l w : Z) (s s' : stream) : Prop :=
  good s' /\ s_buf s' = s_buf s /\ taken s <= taken s' /\ taken s + l <= taken s' /\ 8 * w <= a * (taken s' - taken s) + c.
Definition costM {A} (m : M A) (w : A -> Z) (a c l : Z) : Prop := forall s, good s -> match m s with (Ok x, s') => step a c l (w x) s s' | _ => True end.

Lemma cm_raw n s : good s -> match raw_read_bytes n s with (Ok x, s') => blen x = n /\ 0 <= n /\ s_buf s' = s_buf s /\ s_left s' = s_left s /\ s_bits s' = s_bits s /\ Z.of_nat (s_pos s') = Z.of_nat (s_pos s) + n /\ (s_pos s' <= List.length (s_buf s'))%nat | _ => True end.
Proof.
  intros [L P]. unfold raw_read_bytes. destruct (Z.ltb_spec n 0); [exact I|]. unfold io_read. cbv beta iota zeta.
  set (rest := skipn (s_pos s) (s_buf s)). set (g := if _ <=? n then _ else _). destruct (Z.ltb_spec (blen g) n); [exact I|].
  assert (E : blen rest = Z.of_nat (List.length (s_buf s)) - Z.of_nat (s_pos s)) by (unfold blen, rest; rewrite skipn_length; lia).
  assert (G : blen g = n /\ n <= blen rest).
  { unfold g in *. destruct (Z.leb_spec (blen rest) n); [lia|]. unfold blen in *. rewrite firstn_length in *. lia. }
  destruct G as [G1 G2]. clearbody g rest. cbn [set_pos s_buf s_left s_bits s_pos]. unfold blen in *. repeat split; try lia; reflexivity.
Qed.
Lemma good_auto rt s : good s -> good (auto_align rt s) /\ taken s <= taken (auto_align rt s) /\ s_buf (auto_align rt s) = s_buf s.
Proof. intros [L P]. destruct rt; unfold good, taken; cbn [auto_align align_state s_left s_pos s_buf]; repeat split; try lia; reflexivity. Qed.
Lemma cm_bytes rt n : costM (read_bytes rt n) (fun x => 1 + blen x) 1 8 (8 * Z.max 0 n).
Proof.
  intros s G. unfold read_bytes. destruct (good_auto rt s G) as [G' [T B]]. pose proof (cm_raw n _ G') as R. destruct (raw_read_bytes n (auto_align rt s)) as [[x|e] s']; [|exact I].
  destruct R as [R1 [R0 [R2 [R3 [_ [R4 R5]]]]]]. destruct G' as [L P]. unfold step, good, taken in *. repeat split; try lia; congruence.
Qed.
Lemma cm_full rt : costM (read_bytes_full rt) (fun x => 1 + blen x) 1 8 0.
Proof.
  intros s G. unfold read_bytes_full. cbv zeta. destruct (good_auto rt s G) as [G' [T B]]. destruct G' as [L P].
  assert (E : Z.of_nat (List.length (skipn (s_pos (auto_align rt s)) (s_buf (auto_align rt s)))) = Z.of_nat (List.length (s_buf (auto_align rt s))) - Z.of_nat (s_pos (auto_align rt s))) by (rewrite skipn_length; lia).
  unfold step, good, taken, blen in *. cbn [set_pos s_left s_pos s_buf]. repeat split; try lia; congruence.
Qed.
Lemma cm_bits n : 0 <= n -> costM (read_bits n) (fun _ => 1) 0 8 n.
Proof.
  intros N s [L P]. unfold read_bits. cbv zeta. set (need := n - s_left s). set (left := (- need) mod 8).
  assert (Hl : 0 <= left < 8) by (unfold left; apply Z.mod_pos_bound; lia).
  destruct (Z.ltb_spec 0 need) as [H|H].
  - set (s1 := {| s_buf := s_buf s; s_pos := s_pos s; s_bits := s_bits s; s_left := left |}).
    assert (G1 : good s1) by (split; [exact Hl|exact P]). pose proof (cm_raw ((need - 1) / 8 + 1) s1 G1) as R.
    destruct (raw_read_bytes ((need - 1) / 8 + 1) s1) as [[x|e] s2]; [|exact I]. destruct R as [R1 [R0 [R2 [R3 [_ [R4 R5]]]]]].
    unfold step, good, taken. cbn [s_left s_pos s_buf]. unfold s1 in *. cbn [s_left s_pos s_buf] in *. unfold need, left in *. repeat split; try lia; try congruence.
  - unfold step, good, taken. cbn [s_left s_pos s_buf]. unfold need, left in *. repeat split; try lia.
Qed.
Lemma cm_weaken {A} (m : M A) w w' a c l a' c' l' : costM m w a c l -> (forall x, w' x <= w x) -> a <= a' -> c <= c' -> l' <= l -> costM m w' a' c' l'.
Proof.
  intros H Hw Ha Hc Hl s G. specialize (H s G). destruct (m s) as [[x|e] s']; [|exact I]. destruct H as [G' [B [T1 [T2 E]]]]. specialize (Hw x).
  unfold step. repeat split; try assumption; try lia; try apply G'. nia.
Qed.
Lemma cm_map {A B} (m : M A) (f : A -> M B) w w' a c l : costM m w a c l -> (forall x s, match f x s with (Ok y, s') => s' = s /\ w' y <= w x | _ => True end) -> costM (bind m f) w' a c l.
Proof.
  intros H F s G. unfold bind. specialize (H s G). destruct (m s) as [[x|e] s']; [|exact I]. specialize (F x s'). destruct (f x s') as [[y|e] s2]; [|exact I]. destruct F as [-> F].
  destruct H as [G' [Bf [T1 [T2 E]]]]. unfold step. repeat split; try assumption; try apply G'. lia.
Qed.
Lemma cm_number rt f : costM (number rt f) (fun _ => 1) 0 8 (int_bits f).
Proof.
  assert (H : forall n (g : bytes -> Z), 0 <= n -> costM (x <- read_bytes rt n;; ret (g x)) (fun _ => 1) 0 8 (8 * n)).
  { intros n g Hn s G. unfold bind. pose proof (cm_bytes rt n s G) as R. destruct (read_bytes rt n s) as [[x|e] s']; [|exact I]. destruct R as [G' [B [T1 [T2 E]]]]. unfold ret, step. repeat split; try assumption; try apply G'; lia. }
  destruct f; cbn [number int_bits]; [apply (H 1)|apply (H 2)|apply (H 4)|apply (H 2)|apply (H 4)|apply (H 2)]; lia.
Qed.
Lemma cm_enum en (m : M Z) a c l : costM m (fun _ => 1) a c l -> costM (as_enum en m) size a c l.
Proof.
  intros H. destruct en as [E|]; cbn [as_enum]; unfold venum, vint; (eapply cm_map; [exact H|]); intros x s; cbn [ret]; (split; [reflexivity|]); [|reflexivity].
  unfold resolve_enum. destruct (en_find _ x); reflexivity.
Qed.
Lemma cm_flag : costM vflag size 0 8 1.
Proof. unfold vflag, read_flag. eapply cm_map with (w := fun _ => 1); [eapply cm_map with (w := fun _ => 1); [apply cm_bits; lia|]|]; intros x s; cbn [ret]; (split; [reflexivity|cbn [size]; lia]). Qed.
Lemma cm_vbytes rt n : costM (vbytes rt n) size 1 8 (8 * Z.max 0 n).
Proof. unfold vbytes. eapply cm_map; [apply cm_bytes|]. intros x s. cbn [ret]. split; [reflexivity|]. cbn [size]. unfold blen. lia. Qed.
Lemma cm_vfull rt : costM (vfull rt) size 1 8 0.
Proof. unfold vfull. eapply cm_map; [apply cm_full|]. intros x s. cbn [ret]. split; [reflexivity|]. cbn [size]. unfold blen. lia. Qed.
Lemma cm_vstr rt e n : costM (vstr rt e n) size 1 8 (8 * Z.max 0 n).
Proof.
  unfold vstr, read_str. eapply cm_map with (w := fun s => 1 + Z.of_nat (List.length s)); [eapply cm_map; [apply cm_bytes|]|].
  - intros x s. unfold lift. destruct (py_decode e x) as [t|] eqn:D; [|exact I]. split; [reflexivity|]. apply decode_length in D. lia.
  - intros x s. cbn [ret]. split; [reflexivity|cbn [size]; lia].
Qed.
Lemma cm_vstr_full rt e : costM (vstr_full rt e) size 1 8 0.
Proof.
  unfold vstr_full. eapply cm_map with (w := fun x => 1 + blen x); [apply cm_full|]. intros x s. unfold bind, lift. destruct (py_decode e x) as [t|] eqn:D; [|exact I]. cbn [ret].
  split; [reflexivity|]. apply decode_length in D. cbn [size]. lia.
Qed.
Lemma cm_expect rt x loc : costM (expect_bytes rt x loc) size 1 8 (8 * blen x).
Proof.
  unfold expect_bytes. eapply cm_weaken; [eapply cm_map; [apply cm_bytes|]|intros; apply Z.le_refl|lia|lia|unfold blen; lia].
  intros y s. destruct (bytes_eqb y x) eqn:E; [|exact I]. cbn [ret]. split; [reflexivity|]. cbn [size]. unfold blen. lia.
Qed.
Lemma cm_eof rt : costM (is_eof rt) (fun _ => 0) 0 0 0.
Proof.
  intros s G. unfold is_eof. assert (S : step 0 0 0 0 s s) by (unfold step; repeat split; try apply G; lia). destruct (0 <? s_left s); [exact S|]. destruct rt; [|exact S].
  destruct (io_read 1 s) as [t s1] eqn:R. destruct t; [|exact S]. unfold io_read in R. injection R as R <-. rewrite R. cbn [List.length]. rewrite Nat.add_0_r.
  unfold step, good, taken. cbn [set_pos s_left s_pos s_buf]. repeat split; try apply G; lia.
Qed.

(** ** Objects under construction *)
Definition caches_small (fs : frames) : Prop := forall a, In a fs -> forall n v, In (n, v) a -> is_cache n = true -> size v <= cached.
Definition costs {A} (w0 : Z) (m : K A) (w : A -> Z) (Q : A -> Prop) (a c l : Z) : Prop := forall fs s, good s -> caches_small fs ->
  match m fs s with
  | (Ok (x, fs'), s') => good s' /\ s_buf s' = s_buf s /\ caches_small fs' /\ taken s <= taken s' /\ taken s + l <= taken s' /\
      8 * (fsize fs' + w x) <= 8 * (fsize fs + w0) + a * (taken s' - taken s) + c /\ Q x
  | _ => True end.
Definition none {A} (_ : A) : Z := 0.
Lemma c_ret {A} w0 (x : A) w (Q : A -> Prop) : Q x -> w x <= w0 -> costs w0 (kret x) w Q 0 0 0.
Proof. intros H Hw fs s G C. cbn [kret ret]. repeat split; try apply G; try assumption; lia. Qed.
Lemma c_fail {A} w0 e (w : A -> Z) Q a c l : costs w0 (fun _ => fail e) w Q a c l. Proof. intros fs s G C. exact I. Qed.
Lemma c_bind {A B} w0 (m : K A) (k : A -> K B) w1 P w2 Q a c1 c2 l1 l2 : costs w0 m w1 P a c1 l1 -> (forall x, P x -> costs (w1 x) (k x) w2 Q a c2 l2) ->
  costs w0 (kbind m k) w2 Q a (c1 + c2) (l1 + l2).
Proof.
  intros H1 H2 fs s G C. unfold kbind, bind. specialize (H1 fs s G C). destruct (m fs s) as [[[x fs1]|e] s1]; [|exact I]. destruct H1 as [G1 [B1 [C1 [T1 [L1 [E1 P1]]]]]]. cbn [fst snd].
  specialize (H2 x P1 fs1 s1 G1 C1). destruct (k x fs1 s1) as [[[y fs2]|e] s2]; [|exact I]. destruct H2 as [G2 [B2 [C2 [T2 [L2 [E2 Q2]]]]]].
  split; [exact G2|]. split; [congruence|]. split; [exact C2|]. split; [lia|]. split; [lia|]. split; [lia|exact Q2].
Qed.
Lemma c_weaken {A} w0 (m : K A) w Q a c l w0' w' (Q' : A -> Prop) a' c' l' : costs w0 m w Q a c l -> w0 <= w0' -> (forall x, Q x -> w' x <= w x /\ Q' x) -> a <= a' -> c <= c' -> l' <= l -> costs w0' m w' Q' a' c' l'.
Proof.
  intros H H0 Hw Ha Hc Hl fs s G C. specialize (H fs s G C). destruct (m fs s) as [[[x fs1]|e] s1]; [|exact I]. destruct H as [G1 [B1 [C1 [T1 [L1 [E1 P1]]]]]]. destruct (Hw x P1) as [Hx Q1].
  split; [exact G1|]. split; [exact B1|]. split; [exact C1|]. split; [exact T1|]. split; [lia|]. split; [|exact Q1]. nia.
Qed.
Lemma c_shift {A} w0 (m : K A) w Q a c l d : costs w0 m w Q a c l -> costs (w0 + d) m (fun x => w x + d) Q a c l.
Proof. intros H fs s G C. specialize (H fs s G C). destruct (m fs s) as [[[x fs1]|e] s1]; [|exact I]. destruct H as [G1 [B1 [C1 [T1 [L1 [E1 P1]]]]]]. repeat split; try assumption; try apply G1; lia. Qed.
Lemma c_io {A} (m : M A) w a c l : costM m w a c l -> costs 0 (io m) w any a c l.
Proof.
  intros H fs s G C. unfold io, bind. specialize (H s G). destruct (m s) as [[x|e] s']; [|exact I]. destruct H as [G1 [B1 [T1 [L1 E1]]]]. cbn [ret]. repeat split; try assumption; try apply G1; lia.
Qed.
Lemma c_same {A} (m : K A) (Q : A -> Prop) : (forall fs s, match m fs s with (Ok (x, fs'), s') => fs' = fs /\ s' = s /\ Q x | _ => True end) -> costs 0 m none Q 0 0 0.
Proof. intros H fs s G C. specialize (H fs s). destruct (m fs s) as [[[x fs1]|e] s1]; [|exact I]. destruct H as [-> [-> H]]. unfold none. repeat split; try assumption; try apply G; lia. Qed.
Lemma c_get sc x : costs 0 (get sc x) none any 0 0 0. Proof. apply c_same. intros fs s. unfold get. destruct (lookup _ _); [|exact I]. repeat split. Qed.
Lemma c_need_int v : costs 0 (need_int v) none (fun z => v = VInt z) 0 0 0. Proof. apply c_same. intros fs s. destruct v; try exact I. repeat split. Qed.
Lemma c_need_bool v : costs 0 (need_bool v) none (fun z => v = VBool z) 0 0 0. Proof. apply c_same. intros fs s. destruct v; try exact I. repeat split. Qed.
Lemma c_need_str v : costs 0 (need_str v) none any 0 0 0. Proof. apply c_same. intros fs s. destruct v; try exact I. repeat split. Qed.
Lemma c_put x v : (is_cache x = true -> size v <= cached) -> costs (size v) (put x v) none any 0 0 0.
Proof.
  intros H fs s G C. unfold put, ret. split; [exact G|]. split; [reflexivity|]. split; [|split; [lia|split; [lia|split; [|exact I]]]].
  - intros a Ha n w Hw Hn. destruct Ha as [<-|Ha].
    + apply in_app_or in Hw. destruct Hw as [Hw|[E|[]]]; [|injection E as <- <-; now apply H]. destruct fs as [|a fs]; [destruct Hw|]. exact (C a (or_introl eq_refl) n w Hw Hn).
    + destruct fs as [|b fs]; [destruct Ha|]. exact (C a (or_intror Ha) n w Hw Hn).
  - rewrite fsize_put. unfold none. lia.
Qed.
Lemma c_outer sc (m : K pyval) Q c : costs 0 m none Q 0 c 0 -> costs 0 (fun fs => r <- m (outer sc fs);; ret (fst r, inner sc fs ++ snd r)) none Q 0 c 0.
Proof.
  intros H fs s G C.
  assert (X : fsize (inner sc fs) + fsize (outer sc fs) = fsize fs).
  { rewrite <- fsize_app. destruct sc; cbn [outer inner app]; [reflexivity|destruct fs; reflexivity|]. destruct fs as [|a fs]; [reflexivity|]. rewrite <- app_removelast_last by discriminate. reflexivity. }
  assert (Y : forall a, In a (inner sc fs) \/ In a (outer sc fs) -> In a fs \/ a = []).
  { intros a Ha. destruct sc; cbn [outer inner] in Ha; [destruct Ha as [[]|Ha]; auto|destruct fs; cbn in Ha |- *; tauto|]. destruct fs as [|b fs]; [cbn in Ha; destruct Ha as [[]|[<-|[]]]; auto|].
    left. rewrite (app_removelast_last [] (l := b :: fs)) by discriminate. apply in_or_app. exact Ha. }
  assert (C1 : caches_small (outer sc fs)) by (intros a Ha n v Hv Hn; destruct (Y a (or_intror Ha)) as [I| ->]; [exact (C a I n v Hv Hn)|destruct Hv]).
  specialize (H (outer sc fs) s G C1). unfold bind. destruct (m (outer sc fs) s) as [[[v fs1]|e] s1]; [|exact I]. destruct H as [G1 [B1 [C2 [T1 [L1 [E1 P1]]]]]]. cbn [ret fst snd].
  split; [exact G1|]. split; [exact B1|]. split; [|split; [exact T1|split; [exact L1|split; [|exact P1]]]].
  - intros a Ha n w Hw Hn. apply in_app_or in Ha. destruct Ha as [Ha|Ha]; [|exact (C2 a Ha n w Hw Hn)]. destruct (Y a (or_introl Ha)) as [I| ->]; [exact (C a I n w Hw Hn)|destruct Hw].
  - rewrite fsize_app. unfold none in *. lia.
Qed.
Lemma lookup_in x (a : attrs) v : lookup x a = Some v -> In (x, v) a.
Proof. induction a as [|[n w] a IH]; cbn [lookup]; [discriminate|]. destruct (String.eqb_spec x n) as [->|]; [intros E; left; congruence|right; auto]. Qed.
Lemma c_cached x (m : K pyval) c : 0 <= c -> costs 0 m none (fun v => size v <= cached) 0 c 0 ->
  costs 0 (fun fs => match lookup ("_m_" ++ x) (hd [] fs) with Some v => ret (v, fs) | None => m fs end) none (fun v => size v <= cached) 0 c 0.
Proof.
  intros Hc H fs s G C. destruct (lookup ("_m_" ++ x) (hd [] fs)) as [v|] eqn:L; [|exact (H fs s G C)]. unfold none. cbn [ret]. repeat split; try assumption; try apply G; try lia.
  apply lookup_in in L. destruct fs as [|a fs]; [destruct L|]. exact (C a (or_introl eq_refl) _ _ L (cache_name x)).
Qed.

(** ** Sequencing, loops, streams of their own *)
Lemma c_seq {A B} w0 (m : K A) (k : A -> K B) w1 P w2 Q a c1 c2 l1 l2 c l : costs w0 m w1 P a c1 l1 -> (forall x, P x -> costs (w1 x) (k x) w2 Q a c2 l2) -> c1 + c2 <= c -> l <= l1 + l2 ->
  costs w0 (kbind m k) w2 Q a c l.
Proof. intros H1 H2 Hc Hl. eapply c_weaken; [eapply c_bind; [exact H1|exact H2]|lia|intros x Hx; split; [lia|exact Hx]|lia|exact Hc|exact Hl]. Qed.
Lemma c_up {A} w0 (m : K A) w Q a c l a' c' l' : costs w0 m w Q a c l -> a <= a' -> c <= c' -> l' <= l -> costs w0 m w Q a' c' l'.
Proof. intros H Ha Hc Hl. eapply c_weaken; [exact H|lia|intros x Hx; split; [lia|exact Hx]|exact Ha|exact Hc|exact Hl]. Qed.
Lemma c_present w0 o : costs (w0 + osize o) (present o) (fun v => w0 + size v) any 0 0 0.
Proof. intros fs s G C. destruct o as [v|]; [|exact I]. cbn [present ret osize]. repeat split; try assumption; try apply G; lia. Qed.
Lemma up_to_enough c l : 0 <= c -> 1 <= l -> 0 <= up_to c l /\ c <= up_to c l * l.
Proof. intros Hc Hl. unfold up_to. pose proof (Z.div_mod (c + l - 1) l ltac:(lia)) as D. pose proof (Z.mod_pos_bound (c + l - 1) l ltac:(lia)). split; [apply Z.div_pos; lia|nia]. Qed.
Lemma c_absorb {A} w0 (m : K A) w Q a c l : costs w0 m w Q a c l -> 0 <= c -> 1 <= l -> costs w0 m w Q (a + up_to c l) 0 l.
Proof.
  intros H Hc Hl fs s G C. specialize (H fs s G C). destruct (m fs s) as [[[x fs1]|e] s1]; [|exact I]. destruct H as [G1 [B1 [C1 [T1 [L1 [E1 P1]]]]]].
  destruct (up_to_enough c l Hc Hl) as [U0 U1]. generalize dependent (up_to c l). intros u U0 U1. split; [exact G1|]. split; [exact B1|]. split; [exact C1|]. split; [exact T1|]. split; [exact L1|]. split; [|exact P1]. nia.
Qed.
Lemma c_turns {A} (loop : nat -> K A) w Q a c l : (forall n, costs 0 (loop n) w Q a c l) -> costs 0 (turns loop) w Q a c l.
Proof. intros H fs s. exact (H _ fs s). Qed.
Section Loops.
Context (rt : runtime) (body : K pyval) (a : Z) (l : Z) (Ha : 0 <= a) (Hl : 0 <= l) (H : costs 0 body size any a 0 l).
Lemma c_cons (loop : K (list pyval)) v : costs 0 loop lsize any a 0 0 -> costs (size v) (l <~ loop;; kret (v :: l)) lsize any a 0 0.
Proof.
  intros L. apply (c_shift _ _ _ _ _ _ _ (size v)) in L. eapply c_seq with (c1 := 0) (c2 := 0) (l1 := 0) (l2 := 0); [exact L| |lia|lia]. intros x _. eapply c_up; [apply c_ret; [exact I|]|lia|lia|lia].
  cbn [lsize fold_right]. unfold lsize. lia.
Qed.
Lemma c_eof_loop n : costs 0 (until_eof rt body n) lsize any a 0 0.
Proof.
  induction n as [|n IH]; [apply c_fail|]. cbn [until_eof]. eapply c_seq with (c1 := 0) (c2 := 0) (l1 := 0) (l2 := 0); [eapply c_up; [apply c_io, cm_eof|lia|lia|lia]| |lia|lia].
  intros [|] _; [eapply c_up; [apply c_ret; [exact I|cbn; lia]|lia|lia|lia]|].
  eapply c_seq with (c1 := 0) (c2 := 0) (l1 := l) (l2 := 0); [exact H| |lia|lia]. intros v _. now apply c_cons.
Qed.
Lemma c_times n : costs 0 (times body n) lsize any a 0 0.
Proof.
  induction n as [|n IH]; cbn [times]; [eapply c_up; [apply c_ret; [exact I|cbn; lia]|lia|lia|lia]|].
  eapply c_seq with (c1 := 0) (c2 := 0) (l1 := l) (l2 := 0); [exact H| |lia|lia]. intros v _. now apply c_cons.
Qed.
End Loops.
Lemma c_until body stop a c ce l (Ha : 0 <= a) (Hc : 0 <= c) (Hce : 0 <= ce) (Hl : 1 <= l) (H : costs 0 body size any a c l) (S : forall v, costs 0 (stop v) none any 0 ce 0) n :
  costs 0 (until body stop n) lsize any (a + up_to (c + ce) l) 0 l.
Proof.
  set (A := a + up_to (c + ce) l). assert (HA : 0 <= A) by (pose proof (up_to_enough (c + ce) l ltac:(lia) Hl); unfold A; lia).
  induction n as [|n IH]; [apply c_fail|]. cbn [until].
  assert (X : costs 0 (v <~ body;; e <~ stop v;; kret (v, e)) (fun p => size (fst p)) any A 0 l).
  { apply c_absorb; [|lia|exact Hl]. eapply c_seq with (c1 := c) (c2 := ce) (l1 := l) (l2 := 0); [exact H| |lia|lia]. intros v _.
    pose proof (c_shift _ _ _ _ _ _ _ (size v) (S v)) as Sv. eapply c_seq with (c1 := ce) (c2 := 0) (l1 := 0) (l2 := 0); [eapply c_up; [exact Sv|lia|lia|lia]| |lia|lia].
    intros e _. eapply c_up; [apply c_ret; [exact I|unfold none; cbn [fst]; lia]|lia|lia|lia]. }
  assert (Y : costs 0 (p <~ (v <~ body;; e <~ stop v;; kret (v, e));; if (snd p : bool) then kret [fst p] else l <~ until body stop n;; kret (fst p :: l)) lsize any A 0 l).
  { eapply c_seq with (c1 := 0) (c2 := 0) (l1 := l) (l2 := 0); [exact X| |lia|lia]. intros [v [|]] _; cbn [fst snd].
    - eapply c_up; [apply c_ret; [exact I|cbn [lsize fold_right]; lia]|lia|lia|lia].
    - apply c_cons; [exact HA|]. eapply c_up; [exact IH|lia|lia|lia]. }
  intros fs s G C. specialize (Y fs s G C). unfold kbind, bind in Y |- *. destruct (body fs s) as [[[v f1]|e] s1]; [|exact I]. cbn [fst snd] in Y |- *.
  destruct (stop v f1 s1) as [[[b f2]|e] s2]; [|exact I]. cbn [fst snd kret ret] in Y |- *. exact Y.
Qed.
Lemma taken_le s : good s -> taken s <= 8 * blen (s_buf s). Proof. intros [L P]. unfold taken, blen. lia. Qed.
Lemma good_init x : good (stream_of x) /\ taken (stream_of x) = 0. Proof. unfold good, taken. cbn. repeat split; lia. Qed.
Lemma c_substream {A} rt n (m : K A) w Q a c l : 0 <= a -> costs 0 m w Q a c l -> costs 0 (fun fs => substream rt n (m fs)) w Q a c (8 * Z.max 0 n).
Proof.
  intros Ha H fs s G C. unfold substream. pose proof (cm_bytes rt n s G) as R. destruct (read_bytes rt n s) as [[x|e] s'] eqn:RB; [|exact I]. destruct R as [G' [B [T1 [T2 E]]]].
  destruct (good_init x) as [Gi Ti]. specialize (H fs (stream_of x) Gi C). destruct (m fs (stream_of x)) as [[[y fs1]|e] s1]; [|exact I]. cbn [fst]. destruct H as [G1 [B1 [C1 [U1 [U2 [E1 Q1]]]]]].
  assert (Hx : blen x = n). { unfold read_bytes in RB. destruct (good_auto rt s G) as [Ga _]. pose proof (cm_raw n _ Ga) as R. rewrite RB in R. apply R. }
  pose proof (taken_le _ G1) as TL. rewrite B1 in TL. cbn [stream_of s_buf] in TL. rewrite Ti in *.
  split; [exact G'|]. split; [exact B|]. split; [exact C1|]. split; [exact T1|]. split; [exact T2|]. split; [|exact Q1]. nia.
Qed.
Lemma c_align : costs 0 (io align_to_byte) none any 0 0 0.
Proof. apply c_io. intros s [L P]. unfold align_to_byte, step, good, taken. cbn [align_state s_left s_pos s_buf]. unfold none. repeat split; try lia; reflexivity. Qed.
