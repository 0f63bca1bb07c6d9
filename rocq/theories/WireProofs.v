(** The bits consumed are the bits of the object.  (Support for C60.) *)
From Verif Require Import PyBase Runtime Codec CodecSpec CodecProofs Spec RuntimeProofs Ksy KsySchema KsyTyped InjBase InjCheck InjLevel InjProofs KsyWire.
From Coq Require Import ZifyBool Lia.
Open Scope string_scope.
Open Scope list_scope.
Open Scope Z_scope.
Ltac Zify.zify_post_hook ::= Z.div_mod_to_equations.

(** ** Bits *)
Lemma span_nil b o : span b o o = []. Proof. unfold span. now rewrite Z.sub_diag. Qed.
Lemma span_app b o o1 o2 : o <= o1 <= o2 -> span b o o2 = span b o o1 ++ span b o1 o2.
Proof.
  intros H. unfold span. replace (Z.to_nat (o2 - o)) with (Z.to_nat (o1 - o) + Z.to_nat (o2 - o1))%nat by lia. rewrite seq_app, map_app. f_equal.
  rewrite Nat.add_0_l. rewrite <- (Nat.add_0_r (Z.to_nat (o1 - o))) at 1.
  generalize (Z.to_nat (o2 - o1)) as n. intros n. rewrite <- (Nat.add_0_r (Z.to_nat (o1 - o))). generalize 0%nat at 2 3 as k. induction n as [|n IH]; intros k; [reflexivity|].
  cbn [List.seq map]. f_equal; [f_equal; lia|]. specialize (IH (S k)). rewrite Nat.add_0_r in *. rewrite <- IH. do 2 f_equal. lia.
Qed.
Local Transparent ubits.
Lemma span_msb b o n : 0 <= n -> span b o (o + n) = msb (Z.to_nat n) (ubits b o n).
Proof.
  intros H. unfold span, ubits. replace (o + n - o) with n by lia. generalize (Z.to_nat n) as k. clear n H. induction k as [|k IH]; [reflexivity|].
  rewrite seq_S, map_app, IH. cbn [map msb ubits_n Nat.add]. 
  replace ((2 * ubits_n b o k + Z.b2z (bit b (o + Z.of_nat k))) / 2) with (ubits_n b o k) by (destruct (bit b _); cbn [Z.b2z]; lia).
  f_equal. f_equal. rewrite Z.odd_add, Z.odd_mul. change (Z.odd 2) with false. destruct (bit b _); reflexivity.
Qed.
Local Opaque ubits.
Lemma msb_length n z : List.length (msb n z) = n.
Proof. revert z. induction n as [|n IH]; intros z; [reflexivity|]. cbn [msb]. rewrite app_length, IH. cbn [List.length]. lia. Qed.
(** a byte *)
Lemma span_byte b k : 0 <= k -> span b (8 * k) (8 * k + 8) = msb 8 (bz (nth (Z.to_nat k) b Byte.x00)).
Proof.
  intros Hk. unfold span. replace (8 * k + 8 - 8 * k) with 8 by lia. change (Z.to_nat 8) with 8%nat. cbn [List.seq map].
  assert (B : forall j, 0 <= j < 8 -> bit b (8 * k + j) = Z.testbit (bz (nth (Z.to_nat k) b Byte.x00)) (7 - j)).
  { intros j Hj. Local Transparent bit. unfold bit. replace ((8 * k + j) / 8) with k by lia. replace ((8 * k + j) mod 8) with j by lia. reflexivity. }
  rewrite !B by lia. set (x := nth (Z.to_nat k) b Byte.x00). clearbody x. destruct x; reflexivity.
Qed.
Lemma span_bytes b k n : 0 <= k -> 0 <= n -> k + n <= blen b -> span b (8 * k) (8 * (k + n)) = bytes_bits (slice b k n).
Proof.
  intros Hk Hn. replace n with (Z.of_nat (Z.to_nat n)) by lia. generalize (Z.to_nat n) as m. clear n Hn. intros m. revert k Hk. induction m as [|m IH]; intros k Hk Hl.
  - replace (k + Z.of_nat 0) with k by lia. rewrite span_nil. Local Transparent slice. reflexivity. 
  - rewrite (span_app b (8 * k) (8 * k + 8)) by lia. rewrite span_byte by lia. replace (8 * k + 8) with (8 * (k + 1)) by lia. replace (k + Z.of_nat (S m)) with (k + 1 + Z.of_nat m) by lia.
    rewrite IH by lia. unfold slice. rewrite !Nat2Z.id. replace (Z.to_nat (k + 1)) with (S (Z.to_nat k)) by lia.
    assert (Hc : (Z.to_nat k < List.length b)%nat) by (unfold blen in Hl; lia). clear - Hc. revert Hc. generalize (Z.to_nat k) as j. intros j. revert b.
    induction j as [|j IH]; intros [|x b] Hc; cbn [List.length] in Hc; try lia; [reflexivity|]. cbn [nth skipn]. rewrite IH by lia. destruct b; reflexivity.
Qed.
Local Opaque slice.
Lemma msb_app n m z : msb (n + m) z = msb n (z / 2 ^ Z.of_nat m) ++ msb m z.
Proof.
  revert z. induction m as [|m IH]; intros z; [cbn [msb]; rewrite Nat.add_0_r, app_nil_r; change (2 ^ Z.of_nat 0) with 1; now rewrite Z.div_1_r|].
  rewrite Nat.add_succ_r. cbn [msb]. rewrite IH, <- app_assoc. do 2 f_equal. rewrite Z.div_div by lia. f_equal. rewrite Nat2Z.inj_succ, Z.pow_succ_r by lia. reflexivity.
Qed.
Lemma msb_mod n z k : msb n (z + 2 ^ Z.of_nat n * k) = msb n z.
Proof.
  revert z. induction n as [|n IH]; intros z; [reflexivity|]. cbn [msb]. rewrite Nat2Z.inj_succ, Z.pow_succ_r by lia.
  replace (z + 2 * 2 ^ Z.of_nat n * k) with (z + (2 ^ Z.of_nat n * k) * 2) by ring. rewrite Z.div_add by lia. rewrite IH. do 2 f_equal. rewrite Z.odd_add, Z.odd_mul. cbn [Z.odd]. now rewrite andb_false_r, xorb_false_r.
Qed.
Lemma be_msb x : msb (8 * List.length x) (be_int x) = bytes_bits x.
Proof.
  induction x as [|a x IH] using rev_ind; [reflexivity|]. rewrite be_int_app, app_length. cbn [List.length]. replace (8 * (List.length x + 1))%nat with (8 * List.length x + 8)%nat by lia. rewrite msb_app.
  pose proof (bz_range a). change (2 ^ Z.of_nat 8) with 256. replace ((be_int x * 256 + bz a) / 256) with (be_int x) by lia. rewrite IH. unfold bytes_bits. rewrite flat_map_app. f_equal. cbn [flat_map]. rewrite app_nil_r.
  replace (be_int x * 256 + bz a) with (bz a + 2 ^ Z.of_nat 8 * be_int x) by (change (2 ^ Z.of_nat 8) with 256; ring). apply msb_mod.
Qed.
Fixpoint le_bits (n : nat) (z : Z) : list bool := match n with O => [] | S n => msb 8 z ++ le_bits n (z / 256) end.
Lemma le_msb x : le_bits (List.length x) (le_int x) = bytes_bits x.
Proof.
  induction x as [|a x IH]; [reflexivity|]. cbn [le_int List.length le_bits]. pose proof (bz_range a). replace ((bz a + 256 * le_int x) / 256) with (le_int x) by lia. rewrite IH. unfold bytes_bits. cbn [flat_map]. f_equal.
  exact (msb_mod 8 (bz a) (le_int x)).
Qed.

Section One.
Context (rt : runtime) (b : bytes).
Definition reads {A} (m : K A) (Q : A -> list bool -> Prop) : Prop := forall o fs v f s, 0 <= o <= 8 * blen b -> o mod 8 = 0 -> m fs (at_ b 0 o) = (Ok (v, f), s) ->
  exists o', s = at_ b 0 o' /\ o <= o' <= 8 * blen b /\ o' mod 8 = 0 /\ Q v (span b o o').
Definition readsM {A} (m : M A) (Q : A -> list bool -> Prop) : Prop := forall o v s, 0 <= o <= 8 * blen b -> o mod 8 = 0 -> m (at_ b 0 o) = (Ok v, s) ->
  exists o', s = at_ b 0 o' /\ o <= o' <= 8 * blen b /\ o' mod 8 = 0 /\ Q v (span b o o').
Definition none {A} (_ : A) (l : list bool) : Prop := l = [].
Lemma r_io {A} (m : M A) Q : readsM m Q -> reads (io m) Q.
Proof. intros H o fs v f s Ho Ha E. apply io_inv in E as [E _]. now apply H in E. Qed.
Lemma r_weak {A} (m : K A) (P Q : A -> list bool -> Prop) : (forall a l, P a l -> Q a l) -> reads m P -> reads m Q.
Proof. intros W H o fs v f s Ho Ha E. destruct (H _ _ _ _ _ Ho Ha E) as [o' [E1 [E2 [E3 E4]]]]. exists o'. auto. Qed.
Lemma r_bind {A B} (m : K A) (k : A -> K B) P Q : reads m P -> (forall a l, P a l -> reads (k a) (fun v l' => Q v (l ++ l'))) -> reads (kbind m k) Q.
Proof.
  intros Hm Hk o fs v f s Ho Ha E. apply kbind_inv in E as [a [g [t [E1 E2]]]]. destruct (Hm _ _ _ _ _ Ho Ha E1) as [o1 [-> [L1 [A1 P1]]]].
  destruct (Hk a _ P1 o1 g v f s ltac:(lia) A1 E2) as [o2 [-> [L2 [A2 P2]]]]. exists o2. split; [reflexivity|]. split; [lia|]. split; [exact A2|]. rewrite (span_app b o o1 o2) by lia. exact P2.
Qed.
Lemma r_idle {A B} (m : K A) (k : A -> K B) Q : reads m none -> (forall a, reads (k a) Q) -> reads (kbind m k) Q.
Proof. intros Hm Hk. eapply r_bind; [exact Hm|]. unfold none. intros a l ->. cbn [app]. apply Hk. Qed.
Lemma r_ret {A} (a : A) (Q : A -> list bool -> Prop) : Q a [] -> reads (kret a) Q.
Proof. intros H o fs v f s Ho Ha E. apply kret_inv in E as [-> [-> ->]]. exists o. split; [reflexivity|]. split; [lia|]. split; [exact Ha|]. now rewrite span_nil. Qed.
Lemma r_map {A B} (m : K A) (g : A -> B) P (Q : B -> list bool -> Prop) : reads m P -> (forall a l, P a l -> Q (g a) l) -> reads (v <~ m;; kret (g v)) Q.
Proof. intros Hm H. eapply r_bind; [exact Hm|]. intros a l Hl. apply r_ret. rewrite app_nil_r. auto. Qed.
Lemma r_quiet {A} (m : K A) : quiet m -> reads m none.
Proof. intros H o fs v f s Ho Ha E. apply H in E as [-> ->]; [|lia]. exists o. split; [reflexivity|]. split; [lia|]. split; [exact Ha|]. apply span_nil. Qed.
Lemma r_int v : reads (need_int v) none. Proof. apply r_quiet, q_int. Qed.
Lemma r_bool v : reads (need_bool v) none. Proof. apply r_quiet, q_bool. Qed.
Lemma r_eval e item : mild e = true -> reads (eval rt e item) none.
Proof.
  intros H o fs v f s Ho Ha E. assert (Hh : here b b o) by (split; [lia|split; [lia|intros i Hi; reflexivity]]).
  destruct (mild_eval rt b b e H item fs o Ha _ _ _ _ _ _ Hh E E (join_refl f) I) as [_ [o' [-> [_ [_ ->]]]]]. exists o. split; [reflexivity|]. split; [lia|]. split; [exact Ha|]. apply span_nil.
Qed.
(** ** Leaves *)
Lemma rm_map {A B} (m : M A) (g : A -> B) P (Q : B -> list bool -> Prop) : readsM m P -> (forall a l, P a l -> Q (g a) l) -> readsM (x <- m;; ret (g x)) Q.
Proof. intros Hm H o v s Ho Ha E. apply bind_inv in E as [a [t [E1 E2]]]. destruct (Hm _ _ _ Ho Ha E1) as [o' [-> [L [A1 P1]]]]. unfold ret in E2. exists o'. assert (v = g a) as -> by congruence. split; [congruence|]. auto. Qed.
Lemma rm_bytes n : readsM (read_bytes rt n) (fun x l => l = bytes_bits x /\ blen x = n).
Proof.
  intros o v s Ho Ha E. apply (read_bytes_ok rt) in E as [N [L [X [E ->]]]]; [|lia|exact Ha]. exists (o + 8 * n). split; [reflexivity|]. split; [lia|]. split; [lia|]. split; [|exact E].
  rewrite X, <- span_bytes by lia. f_equal; lia.
Qed.
Lemma rm_full : readsM (read_bytes_full rt) (fun x l => l = bytes_bits x).
Proof.
  intros o v s Ho Ha E. apply (read_full_ok rt) in E as [X ->]; [|lia|exact Ha]. exists (8 * blen b). split; [reflexivity|]. split; [lia|]. split; [lia|]. rewrite X, <- span_bytes by lia. f_equal; lia.
Qed.
Lemma rm_number f : readsM (number rt f) (fun z l => l = int_bits f z).
Proof.
  assert (Be : forall n x l, l = bytes_bits x /\ blen x = Z.of_nat n -> l = msb (8 * n) (be_int x)) by (intros n x l [-> H]; unfold blen in H; assert (List.length x = n) as <- by lia; symmetry; apply be_msb).
  assert (Le : forall n x l, l = bytes_bits x /\ blen x = Z.of_nat n -> l = le_bits n (le_int x)) by (intros n x l [-> H]; unfold blen in H; assert (List.length x = n) as <- by lia; symmetry; apply le_msb).
  destruct f; cbn [number int_bits]; unfold read_u1, read_u2be, read_u2le, read_u4be, read_u4le, read_s2be; eapply rm_map; try apply rm_bytes; cbv beta; intros x l H.
  - exact (Be 1%nat x l H).
  - exact (Be 2%nat x l H).
  - exact (Be 4%nat x l H).
  - rewrite (Le 2%nat x l H). cbn [le_bits]. now rewrite app_nil_r.
  - rewrite (Le 4%nat x l H). cbn [le_bits]. now rewrite app_nil_r.
  - rewrite (Be 2%nat x l H). cbv zeta. destruct (be_int x <? 32768); [reflexivity|]. replace (be_int x - 65536) with (be_int x + 2 ^ Z.of_nat 16 * (-1)) by (change (2 ^ Z.of_nat 16) with 65536; ring). now rewrite msb_mod.
Qed.
Lemma wire_resolve E z : wire_number (resolve_enum E z) = Some z.
Proof. unfold resolve_enum. destruct (en_find (en_members E) z); reflexivity. Qed.
Lemma rm_enum en (m : M Z) (g : Z -> list bool) : readsM m (fun z l => l = g z) -> readsM (as_enum en m) (fun v l => exists z, wire_number v = Some z /\ l = g z).
Proof. intros H. destruct en as [E|]; cbn [as_enum]; (eapply rm_map; [exact H|]); cbv beta; intros z l ->; exists z; split; try reflexivity. apply wire_resolve. Qed.
Lemma rm_decode c (m : M bytes) : readsM m (fun x l => l = bytes_bits x) -> readsM (x <- m;; lift (py_decode c x)) (fun s l => exists x, encode_text c s = Some x /\ l = bytes_bits x).
Proof.
  intros H o v s Ho Ha E. apply bind_inv in E as [a [t [E1 E2]]]. destruct (H _ _ _ Ho Ha E1) as [o' [-> [L [A1 P1]]]]. unfold lift in E2. exists o'. split; [congruence|]. split; [exact L|]. split; [exact A1|].
  exists a. split; [|exact P1]. unfold py_decode in E2. destruct (decode_text c a) as [z|] eqn:D; [|discriminate]. assert (z = v) as -> by congruence. now apply decode_encode.
Qed.
Definition some_wire (t : ty) (v : option pyval) (l : list bool) : Prop := match v with Some v => wire t v l | None => l = [] end.
Lemma r_some t (m : M pyval) : readsM m (wire t) -> reads (v <~ io m;; kret (Some v)) (some_wire t).
Proof. intros H. eapply r_map; [apply r_io; exact H|]. intros a l Hl. exact Hl. Qed.
Lemma rm_weak {A} (m : M A) (P Q : A -> list bool -> Prop) : (forall a l, P a l -> Q a l) -> readsM m P -> readsM m Q.
Proof. intros W H o v s Ho Ha E. destruct (H _ _ _ Ho Ha E) as [o' [E1 [E2 [E3 E4]]]]. exists o'. auto. Qed.

(** ** Loops *)
Lemma r_present t m : reads m (some_wire t) -> reads (v <~ m;; present v) (wire t).
Proof.
  intros H. eapply r_bind; [exact H|]. intros a l Hl o fs v f s Ho Ha E. apply present_inv in E as [-> [-> ->]]. exists o. split; [reflexivity|]. split; [lia|]. split; [exact Ha|]. rewrite span_nil, app_nil_r. exact Hl.
Qed.
Lemma r_cons t body rest : reads body (wire t) -> reads rest (list_wire t) -> reads (v <~ body;; l <~ rest;; kret (v :: l)) (list_wire t).
Proof. intros H1 H2. eapply r_bind; [exact H1|]. intros v l Hl. eapply r_map; [exact H2|]. cbv beta. intros vs ls Hs. now constructor. Qed.
Lemma r_times t body n : reads body (wire t) -> reads (times body n) (list_wire t).
Proof. intros H. induction n as [|n IH]; cbn [times]; [apply r_ret; constructor|]. now apply r_cons. Qed.
Lemma r_fail {A} e (Q : A -> list bool -> Prop) : reads (fun _ => fail e) Q. Proof. intros o fs v f s _ _ E. discriminate. Qed.
Lemma r_eof t body n : reads body (wire t) -> reads (until_eof rt body n) (list_wire t).
Proof.
  intros H. induction n as [|n IH]; cbn [until_eof]; [apply r_fail|]. apply r_idle; [apply r_quiet, q_eof|]. intros [|]; [apply r_ret; constructor|]. now apply r_cons.
Qed.
Lemma r_until t body stop n : reads body (wire t) -> (forall v, reads (stop v) none) -> reads (until body stop n) (list_wire t).
Proof.
  intros H Hs. induction n as [|n IH]; cbn [until]; [apply r_fail|]. eapply r_bind; [exact H|]. intros v l Hl. apply r_idle; [apply Hs|]. intros [|].
  - apply r_ret. constructor; [exact Hl|constructor].
  - eapply r_map; [exact IH|]. cbv beta. intros vs ls Hv. now constructor.
Qed.
Lemma r_turns {A} (loop : nat -> K A) Q : (forall n, reads (loop n) Q) -> reads (turns loop) Q.
Proof. intros H o fs v f s Ho Ha E. unfold turns in E. eapply H; eassumption. Qed.
Definition some_attr (r : rep) (t : ty) (v : option pyval) (l : list bool) : Prop := match v with Some v => attr_wire r t v l | None => l = [] end.
Lemma r_rep r t one : match r with Times e | Until e => mild e = true | _ => True end -> reads one (some_wire t) -> reads (run_rep rt one r) (some_attr r t).
Proof.
  intros K H. destruct r as [| |e|e].
  - cbn [run_rep]. eapply r_weak; [|exact H]. intros [v|] l Hl; [now constructor|exact Hl].
  - cbn [run_rep]. eapply r_map; [apply r_turns; intros n; apply (r_eof t); now apply r_present|]. cbv beta. intros vs l Hl. constructor; [discriminate|exact Hl].
  - change (reads (n <~ eval rt e VNone;; n <~ need_int n;; l <~ times (v <~ one;; present v) (Z.to_nat n);; kret (Some (VList l))) (some_attr (Times e) t)).
    apply r_idle; [now apply r_eval|]. intros v. apply r_idle; [apply r_int|]. intros n. eapply r_map; [apply (r_times t); now apply r_present|]. cbv beta. intros vs l Hl. constructor; [discriminate|exact Hl].
  - change (reads (l <~ turns (until (v <~ one;; present v) (fun v => w <~ eval rt e v;; need_bool w));; kret (Some (VList l))) (some_attr (Until e) t)).
    eapply r_map; [apply r_turns; intros n; apply (r_until t); [now apply r_present|]|]. 
    + intros v. apply r_idle; [now apply r_eval|]. intros w. apply r_bool.
    + cbv beta. intros vs l Hl. constructor; [discriminate|exact Hl].
Qed.

(** ** Types *)
Definition Qty t := ty_keeps t = true -> forall loc en, reads (run_ty rt loc en t) (some_wire t).
Definition Qcs cs := cases_keep cs = true -> forall loc en k, reads (run_cases rt loc en k cs) (fun v l => match v with Some v => case_wire cs v l | None => l = [] end).
Definition Qq q := forall l l', seq_keeps q l = Some l' -> forall path i after o a fs h g s, arrives l o -> 0 <= o <= 8 * blen b ->
  run_attrs rt path i after q (a :: fs) (at_ b 0 o) = (Ok (tt, h :: g), s) ->
  exists o' new, s = at_ b 0 o' /\ o <= o' <= 8 * blen b /\ arrives l' o' /\ public h = public a ++ new /\ seq_wire q new (span b o o').
Definition Qt t := typ_keeps t = true -> reads (run_typ rt t) (object_wire t).
Lemma sized e (m : Z -> M pyval) t : mild e = true -> (forall n, readsM (m n) (wire t)) -> reads (n <~ eval rt e VNone;; n <~ need_int n;; v <~ io (m n);; kret (Some v)) (some_wire t).
Proof. intros K H. apply r_idle; [now apply r_eval|]. intros v. apply r_idle; [apply r_int|]. intros n. now apply r_some. Qed.
Lemma valid_inv2 t z loc en fs s v f s' : run_ty rt loc en (TValid t z) fs s = (Ok (v, f), s') -> v = Some (VInt z).
Proof.
  intros H. change ((v <~ run_ty rt loc en t;; v <~ present v;; n <~ need_int v;; if n =? z then kret (Some v) else fun _ => fail (ValidationNotEqualError (VInt z) v loc)) fs s = (Ok (v, f), s')) in H.
  apply kbind_inv in H as [o [g [t0 [H0 H]]]]. apply kbind_inv in H as [w [g' [t' [H1 H]]]]. apply present_inv in H1 as [-> [-> ->]].
  apply kbind_inv in H as [n [g' [t' [H1 H]]]]. apply need_int_inv in H1 as [-> [-> ->]]. destruct (Z.eqb_spec n z) as [->|]; [|discriminate]. now apply kret_inv in H as [-> _].
Qed.
Lemma bit_wire t n loc en o fs v f s : width t = Some n -> 0 <= o <= 8 * blen b -> run_ty rt loc en t fs (at_ b 0 o) = (Ok (v, f), s) ->
  f = fs /\ s = at_ b 0 (o + n) /\ o + n <= 8 * blen b /\ exists w, v = Some w /\ wire t w (span b o (o + n)).
Proof.
  intros W Ho R.
  assert (Bits : forall k, (if 0 <? k then Some k else None) = Some n -> run_ty rt loc en (TBits k) fs (at_ b 0 o) = (Ok (v, f), s) ->
     f = fs /\ s = at_ b 0 (o + n) /\ o + n <= 8 * blen b /\ exists w, v = Some w /\ wire (TBits k) w (span b o (o + n))).
  { intros k. destruct (Z.ltb_spec 0 k); [|discriminate]. intros E R0. assert (k = n) as -> by congruence. cbn [run_ty] in R0. apply kbind_inv in R0 as [w [g [t0 [R1 R2]]]]. apply kret_inv in R2 as [-> [-> <-]]. apply io_inv in R1 as [R1 ->].
    assert (exists z, read_bits n (at_ b 0 o) = (Ok z, s) /\ wire_number w = Some z) as [z [Rz Wz]].
    { destruct en as [E'|]; cbn [as_enum] in R1; apply bind_inv in R1 as [z [t1 [R1 R2]]]; unfold ret in R2; exists z.
      - assert (t1 = s) as -> by congruence. split; [exact R1|]. assert (w = resolve_enum E' z) as -> by congruence. apply wire_resolve.
      - assert (t1 = s) as -> by congruence. split; [exact R1|]. assert (w = VInt z) as -> by congruence. reflexivity. }
    apply bits_ok in Rz as [-> [-> L]]; [|lia|lia]. split; [reflexivity|]. split; [reflexivity|]. split; [exact L|]. exists w. split; [reflexivity|]. rewrite span_msb by lia. now constructor. }
  destruct t as [k| | | | | | | |t z| | | |]; try discriminate; cbn [width] in W.
  - exact (Bits k W R).
  - assert (n = 1) as -> by congruence. cbn [run_ty] in R. apply kbind_inv in R as [w [g [t0 [R1 R2]]]]. apply kret_inv in R2 as [-> [-> <-]]. apply io_inv in R1 as [R1 ->].
    unfold vflag, read_flag in R1. apply bind_inv in R1 as [x [t1 [R1 R2]]]. apply bind_inv in R1 as [z [t2 [R1 R3]]]. unfold ret in R2, R3. assert (t2 = s) as -> by congruence.
    apply bits_ok in R1 as [-> [-> L]]; [|lia|lia]. split; [reflexivity|]. split; [reflexivity|]. split; [exact L|]. exists w. split; [reflexivity|].
    assert (w = VBool x) as -> by congruence. assert (x = negb (ubits b o 1 =? 0)) as -> by congruence. rewrite ubits_1. unfold span. replace (o + 1 - o) with 1 by lia. change (Z.to_nat 1) with 1%nat. cbn [List.seq map].
    replace (o + Z.of_nat 0) with o by lia. destruct (bit b o); constructor.
  - destruct t as [k| | | | | | | | | | | |]; try discriminate. pose proof (valid_inv2 _ _ _ _ _ _ _ _ _ R) as V. apply valid_inv in R. destruct (Bits k W R) as [-> [-> [L [w [E Hw]]]]].
    split; [reflexivity|]. split; [reflexivity|]. split; [exact L|]. exists w. split; [exact E|]. assert (w = VInt z) as -> by congruence. now constructor.
Qed.

Lemma attr_wires x c r en t q : Qty t -> Qq q -> Qq (Attr x c r en t q).
Proof.
  intros IHt IHq l l' K path i after o a fs h g s Hl Ho R. cbn [seq_keeps] in K.
  destruct (is_cache x) eqn:Hx; [discriminate|]. destruct (existsb (String.eqb x) (names q)); [discriminate|]. cbn [negb andb] in K.
  assert (Fin : forall lm o1 f2 w, seq_keeps q lm = Some l' -> arrives lm o1 -> o <= o1 <= 8 * blen b -> public (hd [] f2) = public a ->
     match w with Some v => attr_wire r t v (span b o o1) | None => o1 = o end ->
     run_attrs rt path (S i) (is_bits t) q ((hd [] f2 ++ put_one x w) :: tl f2) (at_ b 0 o1) = (Ok (tt, h :: g), s) ->
     exists o' new, s = at_ b 0 o' /\ o <= o' <= 8 * blen b /\ arrives l' o' /\ public h = public a ++ new /\ seq_wire (Attr x c r en t q) new (span b o o')).
  { intros lm o1 f2 w Kq Hlm Ho1 Pf Hw Rq. destruct (IHq _ _ Kq _ _ _ _ _ _ _ _ _ Hlm ltac:(lia) Rq) as [o2 [new [-> [L2 [Hl2 [Pn Wn]]]]]].
    exists o2, (put_one x w ++ new). split; [reflexivity|]. split; [lia|]. split; [exact Hl2|]. split.
    - rewrite Pn, public_app, Pf, <- app_assoc. do 2 f_equal. destruct w; [|reflexivity]. unfold put_one, public. cbn [filter fst]. now rewrite Hx.
    - destruct w as [v|]; cbn [put_one app].
      + rewrite (span_app b o o1 o2) by lia. now constructor.
      + subst o1. now constructor. }
  destruct (width t) as [n|] eqn:W.
  - destruct r; try discriminate. destruct (no_inst c) eqn:Hc; [|discriminate]. pose proof (keeps_names _ _ _ K) as Sn. destruct (width_bits _ _ W) as [Hb Hp].
    apply attr_inv in R as [d [f1 [t1 [f2 [t2 [w [new [C [V [R [F [P [A Pf]]]]]]]]]]]]]; [|exact Hx|exact Sn|congruence].
    assert (Hq : quiet (v <~ eval rt c VNone;; need_bool v)) by (apply q_bind; [now apply quiet_eval|intros; apply q_bool]).
    apply Hq in C as X; [|lia]. destruct X as [-> ->]. cbn [run_rep] in V. destruct d.
    + destruct (bit_wire _ _ _ _ _ _ _ _ _ W Ho V) as [_ [-> [L [w' [-> Hw]]]]].
      refine (Fin _ (o + n) f2 (Some w') K _ _ Pf _ R); [|lia|constructor; exact Hw].
      destruct l as [k|]; [|exact I]. cbn [arrives] in Hl. unfold step. assert (Z1 : (o + n) mod 8 = (k + n) mod 8) by (subst k; rewrite Zplus_mod_idemp_l; reflexivity).
      destruct c; try (destruct (Z.eqb_spec (n mod 8) 0) as [Z2|]; [|exact I]; cbn [arrives]; subst k; lia). exact Z1.
    + destruct V as [-> [-> ->]]. refine (Fin _ o _ None K _ _ Pf eq_refl R); [|lia].
      destruct l as [k|]; [|exact I]. cbn [arrives] in Hl. unfold step. destruct c; try (destruct (Z.eqb_spec (n mod 8) 0) as [Z2|]; [exact Hl|exact I]).
      exfalso. cbn [eval] in C. apply kbind_inv in C as [? [? [? [C D]]]]. apply kret_inv in C as [-> [-> ->]]. apply need_bool_inv in D as [D _]. discriminate.
  - match type of K with (if ?c then _ else _) = _ => destruct c eqn:E; [|discriminate] end. repeat match goal with H : _ && _ = true |- _ => apply andb_true_iff in H as [? ?] end. pose proof (keeps_names _ _ _ K) as Sn.
    assert (Ha : o mod 8 = 0) by (destruct l as [[]|]; try discriminate; assumption).
    apply attr_inv in R as [d [f1 [t1 [f2 [t2 [w [new [C [V [R [F [P [A Pf]]]]]]]]]]]]]; [|exact Hx|exact Sn|auto].
    assert (Hc : reads (v <~ eval rt c VNone;; need_bool v) none) by (apply r_idle; [now apply r_eval|intros; apply r_bool]).
    destruct (Hc _ _ _ _ _ Ho Ha C) as [o1 [-> [L1 [A1 N1]]]].
    assert (o1 = o) as ->. { unfold none, span in N1. apply map_eq_nil in N1. destruct (Z.to_nat (o1 - o)) eqn:E0; [lia|discriminate]. }
    destruct d.
    + assert (Hr : reads (run_rep rt (run_ty rt (attr_path path i) en t) r) (some_attr r t)) by (apply r_rep; [destruct r; auto|now apply IHt]).
      destruct (Hr _ _ _ _ _ Ho Ha V) as [o1 [-> [L2 [A2 Hw]]]]. refine (Fin (Some 0) o1 f2 w K A2 _ Pf _ R); [lia|].
      destruct w; [exact Hw|]. cbn [some_attr] in Hw. unfold span in Hw. apply map_eq_nil in Hw. destruct (Z.to_nat (o1 - o)) eqn:E0; [lia|discriminate].
    + destruct V as [-> [-> ->]]. refine (Fin (Some 0) o _ None K Ha _ Pf eq_refl R); lia.
Qed.

Lemma all_wires : (forall e : expr, True) /\ (forall i : inst, True) /\ (forall t, Qty t) /\ (forall cs, Qcs cs) /\ (forall k : key, True) /\ (forall r : rep, True) /\ (forall q, Qq q) /\ (forall t, Qt t).
Proof.
  apply (ksy_mind (fun _ => True) (fun _ => True) Qty Qcs (fun _ => True) (fun _ => True) Qq Qt); try (intros; exact I).
  - intros n K. discriminate.
  - intros K. discriminate.
  - intros f K loc en. cbn [run_ty]. apply r_some. eapply rm_weak; [|apply rm_enum, rm_number]. cbv beta. intros v l [z [Hz ->]]. now constructor.
  - intros e _ K loc en. apply (sized e (vbytes rt)); [exact K|]. intros n. unfold vbytes. eapply rm_map; [apply rm_bytes|]. cbv beta. intros x l [-> _]. constructor.
  - intros K loc en. cbn [run_ty]. apply r_some. unfold vfull. eapply rm_map; [apply rm_full|]. cbv beta. intros x l ->. constructor.
  - intros c e _ K loc en. apply (sized e (vstr rt c)); [exact K|]. intros n. unfold vstr, read_str. eapply rm_map; [apply rm_decode; eapply rm_weak; [|apply rm_bytes]; cbv beta; intros x l [-> _]; reflexivity|].
    cbv beta. intros x l [y [Hy ->]]. now constructor.
  - intros c K loc en. cbn [run_ty]. apply r_some. intros o v s Ho Ha E. unfold vstr_full in E.
    assert (D : readsM (x <- read_bytes_full rt;; lift (py_decode c x)) (fun s l => exists x, encode_text c s = Some x /\ l = bytes_bits x)) by (apply rm_decode, rm_full).
    assert (D' : readsM (x <- (x <- read_bytes_full rt;; lift (py_decode c x));; ret (VStr x)) (wire (TStrEos c))) by (eapply rm_map; [exact D|]; cbv beta; intros x l [y [Hy ->]]; now constructor).
    apply (D' o v s Ho Ha). apply bind_inv in E as [x [t [E1 E2]]]. apply bind_inv in E2 as [y [t' [E2 E3]]]. unfold bind. rewrite E1, E2. exact E3.
  - intros x K loc en. cbn [run_ty]. apply r_some. intros o v s Ho Ha E. unfold expect_bytes in E. apply bind_inv in E as [y [t [E1 E2]]].
    destruct (rm_bytes _ _ _ _ Ho Ha E1) as [o' [-> [L [A1 [P1 _]]]]]. destruct (bytes_eqb y x) eqn:Eb; [|discriminate]. apply bytes_eqb_true in Eb. subst y. unfold ret in E2.
    exists o'. split; [congruence|]. split; [exact L|]. split; [exact A1|]. assert (v = VBytes x) as -> by congruence. rewrite P1. constructor.
  - intros t IH z K loc en o fs v f s Ho Ha R. pose proof (valid_inv2 _ _ _ _ _ _ _ _ _ R) as V. apply valid_inv in R. destruct (IH K loc en _ _ _ _ _ Ho Ha R) as [o' [-> [L [A1 P1]]]].
    exists o'. split; [reflexivity|]. split; [exact L|]. split; [exact A1|]. subst v. cbn [some_wire] in *. now constructor.
  - intros t IH K loc en o fs v f s Ho Ha R. cbn [ty_keeps] in K. apply andb_true_iff in K as [K _]. apply imported_inv in R as [_ [w [g [-> R]]]]. destruct (IH K _ _ _ _ _ Ho Ha R) as [o' [-> [L [A1 P1]]]].
    exists o'. split; [reflexivity|]. split; [exact L|]. split; [exact A1|]. now constructor.
  - intros t IH K loc en o fs v f s Ho Ha R. apply local_inv in R as [w [-> R]]. destruct (IH K _ _ _ _ _ Ho Ha R) as [o' [-> [L [A1 P1]]]].
    exists o'. split; [reflexivity|]. split; [exact L|]. split; [exact A1|]. now constructor.
  - intros e _ t _ K. discriminate.
  - intros e _ cs IH K loc en. cbn [ty_keeps] in K. apply andb_true_iff in K as [K1 K2].
    change (reads (v <~ eval rt e VNone;; run_cases rt loc en v cs) (some_wire (TSwitch e cs))).
    apply r_idle; [apply r_eval; apply orb_true_iff in K1 as [K1|K1]; [unfold mild; now rewrite K1|now apply andb_true_iff in K1 as [? _]]|].
    intros v. eapply r_weak; [|apply IH; exact K2]. cbv beta. intros [w|] l Hl; [now constructor|exact Hl].
  - intros K loc en k. cbn [run_cases]. apply r_ret. reflexivity.
  - intros t IH K loc en k. change (reads (run_ty rt loc en t) (fun v l => match v with Some v => case_wire (CDefault t) v l | None => l = [] end)).
    eapply r_weak; [|apply IH; exact K]. intros [w|] l Hl; [now constructor|exact Hl].
  - intros k _ t IHt cs IHc K loc en y. cbn [cases_keep] in K. apply andb_true_iff in K as [K1 K2].
    assert (G1 : reads (run_ty rt loc en t) (fun v l => match v with Some v => case_wire (CCons k t cs) v l | None => l = [] end)) by (eapply r_weak; [|apply IHt; exact K1]; intros [w|] l Hl; [now constructor|exact Hl]).
    assert (G2 : reads (run_cases rt loc en y cs) (fun v l => match v with Some v => case_wire (CCons k t cs) v l | None => l = [] end)) by (eapply r_weak; [|apply IHc; exact K2]; intros [w|] l Hl; [now apply W_later|exact Hl]).
    cbn [run_cases]. match goal with |- reads (if ?c then _ else _) _ => destruct c end; [exact G1|exact G2].
  - intros l l' K path i after o a fs h g s Hl Ho R. cbn [seq_keeps] in K. assert (l = l') as <- by congruence. cbn [run_attrs] in R. apply kret_inv in R as [_ [F ->]].
    exists o, []. split; [reflexivity|]. split; [lia|]. split; [exact Hl|]. assert (h = a) as -> by congruence. split; [now rewrite app_nil_r|]. rewrite span_nil. constructor.
  - intros x c _ r _ en t IHt q IHq. now apply attr_wires.
  - intros path q IH K o fs v f s Ho Ha R. apply typ_inv in R as [h [-> R]]. cbn [typ_keeps] in K. destruct (seq_keeps q (Some 0)) as [[k|]|] eqn:Q; try discriminate. destruct k; try discriminate.
    destruct (IH _ _ Q _ _ _ _ _ _ _ _ _ Ha Ho R) as [o' [new [-> [L [Hl [Pn Wn]]]]]]. exists o'. split; [reflexivity|]. split; [exact L|]. split; [exact Hl|]. constructor. cbn [public filter app] in Pn. rewrite Pn. exact Wn.
Qed.

Lemma wire_read t v s : keeps t = true -> ksy_read rt t (stream_of b) = (Ok v, s) ->
  exists o, s = at_ b 0 o /\ 0 <= o <= 8 * blen b /\ object_wire t v (span b 0 o) /\ (typ_keeps t = true -> o mod 8 = 0).
Proof.
  intros K R. rewrite at_init in R. unfold ksy_read in R. apply bind_inv in R as [[w g] [t1 [R Q]]]. unfold ret in Q. cbn [fst] in Q. assert (w = v) as -> by congruence. assert (t1 = s) as -> by congruence.
  destruct t as [path q]. apply typ_inv in R as [h [-> R]]. cbn [keeps] in K. destruct (seq_keeps q (Some 0)) as [l'|] eqn:E; [|discriminate].
  destruct all_wires as [_ [_ [_ [_ [_ [_ [Hq _]]]]]]]. destruct (Hq q _ _ E path 0%nat false 0 [] [] h g s eq_refl ltac:(unfold blen; lia)) as [o [new [-> [L [Hl [Pn Wn]]]]]].
  { exact R. }
  exists o. split; [reflexivity|]. split; [exact L|]. split; [constructor; cbn [public filter app] in Pn; rewrite Pn; exact Wn|]. cbn [typ_keeps]. rewrite E. destruct l' as [[]|]; try discriminate. intros _. exact Hl.
Qed.
End One.
