(** C64: the bound of KsySize is right, for every definition. *)
From Verif Require Import PyBase Runtime Codec CodecSpec CodecProofs RuntimeProofs Ksy KsySchema KsyTyped KsySize SizeProofs.
Open Scope string_scope.
Open Scope list_scope.
Open Scope Z_scope.

Section Main.
Context (rt : runtime).
Definition little {A} (e : A) (b : A -> bool) (v : pyval) : Prop := b e = true -> size v <= cached.
Definition nonneg (k : cost) : Prop := 0 <= per_bit k /\ 0 <= fixed k /\ 0 <= least k.
Definition Pe (e : expr) : Prop := expr_ok e = true -> 0 <= expr_cost e /\ forall item, costs 0 (eval rt e item) none (little e small) 0 (expr_cost e) 0.
Definition Pi (i : inst) : Prop := inst_ok i = true -> 0 <= inst_cost i /\ costs 0 (run_inst rt i) none (fun v => size v <= cached) 0 (inst_cost i) 0.
Definition bounded (m : K (option pyval)) (k : cost) : Prop := costs 0 m osize any (per_bit k) (fixed k) (least k).
Definition Pty (t : ty) : Prop := ty_ok t = true -> nonneg (ty_cost t) /\ forall loc en, bounded (run_ty rt loc en t) (ty_cost t).
Definition Pcs (cs : cases) : Prop := cases_ok cs = true -> nonneg (cases_cost cs) /\ forall loc en v, bounded (run_cases rt loc en v cs) (cases_cost cs).
Definition rep_ok (r : rep) (k : cost) : bool := match r with Once => true | Eos => 1 <=? least k | Times e | Until e => expr_ok e && (1 <=? least k) end.
Definition Pr (r : rep) : Prop := forall one k, nonneg k -> bounded one k -> rep_ok r k = true -> nonneg (repeated r k) /\ bounded (run_rep rt one r) (repeated r k).
Definition Pq (q : attr_list) : Prop := seq_ok q = true -> nonneg (seq_cost q) /\ forall path i after, costs 0 (run_attrs rt path i after q) none any (per_bit (seq_cost q)) (fixed (seq_cost q)) (least (seq_cost q)).
Definition Pt (t : typ) : Prop := typ_ok t = true -> nonneg (typ_cost t) /\ costs 0 (run_typ rt t) size any (per_bit (typ_cost t)) (fixed (typ_cost t)) (least (typ_cost t)).
Definition Pk (_ : key) : Prop := True.

Lemma c_quiet {A} (m : M A) Q : (forall s, match m s with (Ok x, s') => s' = s /\ Q x | _ => True end) -> costs 0 (io m) none Q 0 0 0.
Proof. intros H. apply c_same. intros fs s. unfold io, bind. specialize (H s). destruct (m s) as [[x|e] s']; [|exact I]. destruct H as [-> H]. cbn [ret]. auto. Qed.
Lemma c_val {A} (m : K A) P (Q : pyval -> Prop) c (f : A -> pyval) : costs 0 m none P 0 c 0 -> (forall x, Q (f x)) -> costs 0 (x <~ m;; kret (f x)) none Q 0 c 0.
Proof. intros H HQ. eapply c_seq with (c1 := c) (c2 := 0) (l1 := 0) (l2 := 0); [exact H| |lia|lia]. intros x _. apply c_ret; [apply HQ|unfold none; lia]. Qed.
Lemma c_then {A B} (m : K A) (k : A -> K B) P Q c1 c2 c : costs 0 m none P 0 c1 0 -> (forall x, P x -> costs 0 (k x) none Q 0 c2 0) -> c1 + c2 <= c -> costs 0 (x <~ m;; k x) none Q 0 c 0.
Proof. intros H HQ Hc. eapply c_seq with (l1 := 0) (l2 := 0); [exact H|exact HQ|exact Hc|lia]. Qed.
Lemma c_any {A} (m : K A) P c c' : costs 0 m none P 0 c 0 -> c <= c' -> costs 0 m none any 0 c' 0.
Proof. intros H Hc. eapply c_weaken; [exact H|lia|intros; split; [lia|exact I]|lia|exact Hc|lia]. Qed.
Lemma small_int z : size (VInt z) <= cached. Proof. unfold cached. cbn. lia. Qed.
Lemma small_bool z : size (VBool z) <= cached. Proof. unfold cached. cbn. lia. Qed.
Ltac two H := let H1 := fresh in apply andb_true_iff in H as [H1 H].
Lemma const_value e n : e = EInt n -> forall item (P : pyval -> Prop) c, costs 0 (eval rt e item) none P 0 c 0 -> costs 0 (eval rt e item) none (fun v => P v /\ v = VInt n) 0 c 0.
Proof. intros -> item P c H fs s G C. specialize (H fs s G C). cbn [eval kret ret] in *. destruct H as [? [? [? [? [? [? ?]]]]]]. auto 10. Qed.
(** [n <~ eval e;; n <~ need_int n;; ...] *)
Lemma c_length {B} e (k : Z -> K B) w Q a c l : 0 <= a -> Pe e -> expr_ok e = true -> (forall n, l n <= 8 * Z.max 0 n) -> l 0 = 0 -> (forall n, costs 0 (k n) w Q a c (8 * Z.max 0 n)) ->
  costs 0 (n <~ eval rt e VNone;; n <~ need_int n;; k n) w Q a (expr_cost e + c) (const_bits e).
Proof.
  intros Ha IH O _ _ H. destruct (IH O) as [_ E]. specialize (E VNone).
  assert (C : costs 0 (eval rt e VNone) none (fun v => const_bits e = 0 \/ exists z, e = EInt z /\ v = VInt z) 0 (expr_cost e) 0).
  { assert (D : const_bits e = 0 \/ exists z, e = EInt z) by (destruct e; eauto). destruct D as [D|[z D]].
    - eapply c_weaken; [exact E|lia|intros x _; split; [lia|left; exact D]|lia|lia|lia].
    - eapply c_weaken; [exact (const_value _ z D VNone _ _ E)|lia|intros x Hx; destruct Hx as [_ Hx]; split; [lia|right; eauto]|lia|lia|lia]. }
  intros fs s G Cs. specialize (C fs s G Cs). unfold kbind, bind. destruct (eval rt e VNone fs s) as [[[v f1]|x] s1]; [|exact I]. destruct C as [G1 [B1 [C1 [T1 [L1 [E1 P1]]]]]]. cbn [fst snd].
  destruct v; cbn [need_int ret]; try exact I. cbn [fst snd]. specialize (H z f1 s1 G1 C1). destruct (k z f1 s1) as [[[y f2]|x] s2]; [|exact I]. destruct H as [G2 [B2 [C2 [T2 [L2 [E2 P2]]]]]].
  split; [exact G2|]. split; [congruence|]. split; [exact C2|]. split; [lia|]. split; [|split; [unfold none in *; nia|exact P2]].
  destruct P1 as [->|[z' [-> P1]]]; [lia|]. injection P1 as ->. cbn [const_bits]. lia.
Qed.
Lemma c_some (m : M pyval) a c l : costM m size a c l -> 0 <= a -> costs 0 (v <~ io m;; kret (Some v)) osize any a c l.
Proof. intros H Ha. eapply c_seq with (c1 := c) (c2 := 0) (l1 := l) (l2 := 0); [apply c_io, H| |lia|lia]. intros v _. eapply c_up; [apply c_ret; [exact I|cbn [osize]; lia]|lia|lia|lia]. Qed.

(** A value read somewhere else: the position is restored. *)
Lemma bytes_anywhere n s : match read_bytes rt n s with (Ok x, s') => blen x <= n /\ s_buf s' = s_buf s /\ (s_left s' = s_left s \/ s_left s' = 0) | _ => True end.
Proof.
  unfold read_bytes, raw_read_bytes. destruct (Z.ltb_spec n 0) as [|N]; [exact I|]. unfold io_read. cbv beta iota zeta. set (s1 := auto_align rt s). set (g := if _ <=? n then _ else _). destruct (blen g <? n); [exact I|].
  assert (G : blen g <= n). { unfold g. destruct (Z.leb_spec (blen (skipn (s_pos s1) (s_buf s1))) n) as [L|L]; [exact L|]. unfold blen. rewrite firstn_length. lia. }
  split; [exact G|]. unfold s1. destruct rt; cbn [auto_align align_state set_pos s_buf s_left]; auto.
Qed.
Lemma enum_small en (m : M Z) s : match as_enum en m s with (Ok v, _) => size v <= cached | _ => True end.
Proof. destruct en as [E|]; cbn [as_enum]; unfold venum, vint, bind; destruct (m s) as [[x|e] s1]; try exact I; cbn [ret]; unfold cached; [|cbn [size]; lia]. unfold resolve_enum. destruct (en_find _ x); cbn [size]; lia. Qed.
Lemma enum_state en (m : M Z) s v s' : as_enum en m s = (Ok v, s') -> exists z, m s = (Ok z, s').
Proof. destruct en as [E|]; cbn [as_enum]; unfold venum, vint, bind; destruct (m s) as [[x|e] s1]; try discriminate; cbn [ret]; intros X; injection X as _ <-; eauto. Qed.
Lemma number_anywhere f s : match number rt f s with (Ok _, s') => s_buf s' = s_buf s /\ (s_left s' = s_left s \/ s_left s' = 0) | _ => True end.
Proof.
  assert (H : forall n (g : bytes -> Z), match (x <- read_bytes rt n;; ret (g x)) s with (Ok _, s') => s_buf s' = s_buf s /\ (s_left s' = s_left s \/ s_left s' = 0) | _ => True end).
  { intros n g. unfold bind. pose proof (bytes_anywhere n s) as R. destruct (read_bytes rt n s) as [[x|e] s']; [|exact I]. cbn [ret]. apply R. }
  destruct f; cbn [number]; [apply (H 1)|apply (H 2)|apply (H 4)|apply (H 2)|apply (H 4)|apply (H 2)].
Qed.
Definition at_ok (t : ty) : bool := match t with TInt _ => true | TStr _ (EInt n) => (0 <=? n) && (n <=? 1) | _ => false end.
Lemma at_value en t loc fs s : at_ok t = true ->
  match run_ty rt loc en t fs s with (Ok (o, fs'), s') => fs' = fs /\ s_buf s' = s_buf s /\ (s_left s' = s_left s \/ s_left s' = 0) /\ (forall v, o = Some v -> size v <= cached) | _ => True end.
Proof.
  destruct t; cbn [at_ok]; try discriminate.
  - intros _. cbn [run_ty]. unfold kbind, io, bind. pose proof (enum_small en (number rt f) s) as S. pose proof (enum_state en (number rt f) s) as T. destruct (as_enum en (number rt f) s) as [[v|e] s1]; [|exact I]. cbn [ret fst snd kret].
    destruct (T v s1 eq_refl) as [z Z]. pose proof (number_anywhere f s) as N. rewrite Z in N. repeat split; try apply N. intros w E. injection E as <-. exact S.
  - destruct size; try discriminate. intros H. apply andb_true_iff in H as [H0 H1]. apply Z.leb_le in H0, H1. cbn [run_ty eval]. unfold kbind, io, bind. cbn [kret ret need_int fst snd].
    unfold vstr, read_str, bind. pose proof (bytes_anywhere z s) as R. destruct (read_bytes rt z s) as [[x|e] s1]; [|exact I]. destruct R as [R1 [R2 R3]]. unfold lift. destruct (py_decode c x) as [u|] eqn:D; [|exact I]. cbn [ret fst snd].
    split; [reflexivity|]. split; [exact R2|]. split; [exact R3|]. intros v E. injection E as <-. apply decode_length in D. unfold cached. cbn [KsySize.size]. lia.
Qed.
(** Evaluating an expression does not move. *)
Definition still (s s' : stream) : Prop := s_buf s' = s_buf s /\ s_pos s' = s_pos s /\ (s_left s' = s_left s \/ s_left s' = 0).
Definition stays {A} (m : K A) : Prop := forall fs s, match m fs s with (Ok _, s') => still s s' | _ => True end.
Lemma still_refl s : still s s. Proof. unfold still. auto. Qed.
Lemma still_trans s s1 s2 : still s s1 -> still s1 s2 -> still s s2.
Proof. intros [A1 [A2 A3]] [B1 [B2 B3]]. split; [congruence|]. split; [congruence|]. destruct B3 as [->|]; [|auto]. exact A3. Qed.
Lemma st_ret {A} (x : A) : stays (kret x). Proof. intros fs s. apply still_refl. Qed.
Lemma st_bind {A B} (m : K A) (k : A -> K B) : stays m -> (forall x, stays (k x)) -> stays (kbind m k).
Proof. intros H1 H2 fs s. unfold kbind, bind. specialize (H1 fs s). destruct (m fs s) as [[[x f1]|e] s1]; [|exact I]. cbn [fst snd]. specialize (H2 x f1 s1). destruct (k x f1 s1) as [[y|e] s2]; [|exact I]. now apply still_trans with s1. Qed.
Lemma st_same {A} (m : K A) : (forall fs s, match m fs s with (Ok _, s') => s' = s | _ => True end) -> stays m.
Proof. intros H fs s. specialize (H fs s). destruct (m fs s) as [[x|e] s1]; [|exact I]. subst. apply still_refl. Qed.
Lemma st_eof : stays (io (is_eof rt)).
Proof.
  intros fs s. unfold io, bind, is_eof. destruct (0 <? s_left s); [apply still_refl|]. destruct rt; [|apply still_refl]. destruct (io_read 1 s) as [t s1] eqn:R. destruct t; [|apply still_refl]. unfold io_read in R. injection R as R <-. rewrite R. cbn [List.length ret]. rewrite Nat.add_0_r. unfold still. cbn [set_pos s_buf s_pos s_left]. auto.
Qed.
Lemma st_cached x (m : K pyval) : stays m -> stays (fun fs => match lookup ("_m_" ++ x) (hd [] fs) with Some v => ret (v, fs) | None => m fs end).
Proof. intros H fs s. destruct (lookup _ _); [apply still_refl|apply H]. Qed.
Lemma st_at x c p en t : stays (eval rt c VNone) -> stays (eval rt p VNone) -> at_ok t = true ->
  stays (c <~ eval rt c VNone;; c <~ need_bool c;;
           if (c : bool) then
             back <~ io io_pos;; p <~ eval rt p VNone;; p <~ need_int p;; _ <~ io (io_seek rt p);;
             v <~ run_ty rt "" en t;; v <~ present v;; _ <~ io (io_seek rt back);; _ <~ put ("_m_" ++ x) v;; kret v
           else kret VNone).
Proof.
  intros Hc Hp Ot. apply st_bind; [exact Hc|]. intros v. apply st_bind; [apply st_same; intros fs s; destruct v; reflexivity || exact I|]. intros [|]; [|apply st_ret].
  intros fs s. unfold kbind at 1. unfold bind at 1. unfold io at 1. unfold bind at 1. unfold io_pos at 1. cbn [ret fst snd].
  unfold kbind at 1, bind at 1. specialize (Hp fs s). destruct (eval rt p VNone fs s) as [[[w f1]|e] s1]; [|exact I]. destruct Hp as [P1 [P2 P3]]. cbn [fst snd].
  unfold kbind at 1, bind at 1. destruct w; cbn [need_int ret fst snd]; try exact I.
  unfold kbind at 1, bind at 1. unfold io at 1, bind at 1. unfold io_seek at 1. cbn [ret fst snd].
  set (s2 := set_pos (auto_align rt s1) (Z.to_nat z)). assert (S2 : s_buf s2 = s_buf s1 /\ (s_left s2 = s_left s1 \/ s_left s2 = 0)) by (unfold s2; destruct rt; cbn; auto). clearbody s2.
  unfold kbind at 1, bind at 1. pose proof (at_value en t "" f1 s2 Ot) as V. destruct (run_ty rt "" en t f1 s2) as [[[o f2]|e] s3]; [|exact I]. destruct V as [-> [V1 [V2 V3]]]. cbn [fst snd].
  unfold kbind at 1, bind at 1. destruct o as [u|]; cbn [present ret fst snd]; [|exact I].
  unfold kbind at 1, bind at 1. unfold io at 1, bind at 1. unfold io_seek at 1. cbn [ret fst snd kbind bind put kret]. unfold kbind, bind, put, kret, ret. destruct S2 as [S2 S3].
  assert (s_buf (auto_align rt s3) = s_buf s3 /\ (s_left (auto_align rt s3) = s_left s3 \/ s_left (auto_align rt s3) = 0)) as [A1 A2] by (destruct rt; cbn; auto).
  unfold still. cbn [set_pos s_buf s_left s_pos]. split; [congruence|]. split; [apply Nat2Z.id|]. destruct A2 as [->|]; [|auto]. destruct V2 as [->|]; [|auto]. destruct S3 as [->|]; auto.
Qed.
Definition Se (e : expr) : Prop := expr_ok e = true -> forall item, stays (eval rt e item).
Definition Si (i : inst) : Prop := inst_ok i = true -> stays (run_inst rt i).
Ltac oks := repeat match goal with H : _ && _ = true |- _ => apply andb_true_iff in H as [? ?] end.
Lemma st_int v : stays (need_int v). Proof. apply st_same. intros fs s. destruct v; exact I || reflexivity. Qed.
Lemma st_bool v : stays (need_bool v). Proof. apply st_same. intros fs s. destruct v; exact I || reflexivity. Qed.
Lemma st_str v : stays (need_str v). Proof. apply st_same. intros fs s. destruct v; exact I || reflexivity. Qed.
Lemma all_still : (forall e, Se e) /\ (forall i, Si i).
Proof.
  pose proof (ksy_mind Se Si (fun _ => True) (fun _ => True) (fun _ => True) (fun _ => True) (fun _ => True) (fun _ => True)) as X.
  enough (Y : (forall e, Se e) /\ (forall i, Si i) /\ (forall t : ty, True) /\ (forall cs : cases, True) /\ (forall k : key, True) /\ (forall r : rep, True) /\ (forall q : attr_list, True) /\ (forall t : typ, True)) by tauto.
  apply X; clear X; try (intros; exact I); unfold Se, Si.
  - intros _ item. apply st_ret.
  - intros z _ item. apply st_ret.
  - intros z _ item. apply st_ret.
  - intros sc x _ item. apply st_same. intros fs s. cbn [eval]. unfold get. destruct (lookup _ _); [reflexivity|exact I].
  - intros e IH x O item. change (expr_ok e = true) in O. cbn [eval]. apply st_bind; [now apply IH|]. intros o. apply st_same. intros fs s. destruct (getattr x o); [reflexivity|exact I].
  - intros _ item. apply st_ret.
  - intros _ item. cbn [eval]. apply st_bind; [apply st_eof|]. intros; apply st_ret.
  - intros _ item. cbn [eval]. apply st_bind; [apply st_same; intros fs s; reflexivity|]. intros; apply st_ret.
  - intros _ item. cbn [eval]. apply st_bind; [apply st_same; intros fs s; reflexivity|]. intros; apply st_ret.
  - intros e IH E m O item. change (expr_ok e = true) in O. cbn [eval]. apply st_bind; [now apply IH|]. intros; apply st_ret.
  - intros e IH x O item. change (expr_ok e = true) in O. cbn [eval]. apply st_bind; [now apply IH|]. intros. apply st_bind; [apply st_str|]. intros; apply st_ret.
  - intros e IH O item. change (expr_ok e = true) in O. cbn [eval]. apply st_bind; [now apply IH|]. intros. apply st_bind; [apply st_bool|]. intros; apply st_ret.
  - intros a IHa b IHb O item. change (expr_ok a && expr_ok b = true) in O. oks. cbn [eval]. apply st_bind; [now apply IHa|]. intros. apply st_bind; [apply st_bool|]. intros [|]; [now apply IHb|apply st_ret].
  - intros a IHa b IHb O item. change (expr_ok a && expr_ok b = true) in O. oks. cbn [eval]. apply st_bind; [now apply IHa|]. intros. apply st_bind; [apply st_bool|]. intros [|]; [apply st_ret|now apply IHb].
  - intros o a IHa b IHb O item. change (expr_ok a && expr_ok b = true) in O. oks. cbn [eval]. apply st_bind; [now apply IHa|]. intros. apply st_bind; [apply st_int|]. intros. apply st_bind; [now apply IHb|]. intros. apply st_bind; [apply st_int|]. intros; apply st_ret.
  - intros c IHc a IHa b IHb O item. change (expr_ok c && expr_ok a && expr_ok b = true) in O. oks. cbn [eval]. apply st_bind; [now apply IHc|]. intros. apply st_bind; [apply st_bool|]. intros [|]; [now apply IHa|now apply IHb].
  - intros e IH O item. change (expr_ok e = true) in O. cbn [eval]. apply st_bind; [now apply IH|]. intros v. apply st_bind; [apply st_same; intros fs s; unfold io, bind, lift; destruct (to_i v); [reflexivity|exact I]|]. intros; apply st_ret.
  - intros e IH O item. change (expr_ok e = true) in O. cbn [eval]. apply st_bind; [now apply IH|]. intros. apply st_bind; [apply st_int|]. intros; apply st_ret.
  - intros a IHa b IHb O item. change (expr_ok a && expr_ok b = true) in O. oks. cbn [eval]. apply st_bind; [now apply IHa|]. intros. apply st_bind; [apply st_str|]. intros. apply st_bind; [now apply IHb|]. intros. apply st_bind; [apply st_str|]. intros; apply st_ret.
  - intros e IH c O item. change (expr_ok e = true) in O. cbn [eval]. apply st_bind; [now apply IH|]. intros v. apply st_same. intros fs s. destruct v; try exact I. unfold bind, lift. destruct (py_decode c l); [reflexivity|exact I].
  - intros sc i IH O item. change (inst_ok i = true) in O. specialize (IH O). intros fs s. change (match (r <- run_inst rt i (outer sc fs);; ret (fst r, inner sc fs ++ snd r)) s with (Ok _, s') => still s s' | _ => True end).
    unfold bind. specialize (IH (outer sc fs) s). destruct (run_inst rt i (outer sc fs) s) as [[[v f1]|e] s1]; [exact IH|exact I].
  - intros x e IH O. change (expr_ok e && small e = true) in O. oks. apply (st_cached x (v <~ eval rt e VNone;; _ <~ put ("_m_" ++ x) v;; kret v)). apply st_bind; [now apply IH|]. intros v. apply st_bind; [apply st_same; intros fs s; reflexivity|]. intros; apply st_ret.
  - intros x c IHc p IHp en t _ O. change (expr_ok c && expr_ok p && at_ok t = true) in O. oks.
    apply (st_cached x (c <~ eval rt c VNone;; c <~ need_bool c;;
           if (c : bool) then
             back <~ io io_pos;; p <~ eval rt p VNone;; p <~ need_int p;; _ <~ io (io_seek rt p);;
             v <~ run_ty rt "" en t;; v <~ present v;; _ <~ io (io_seek rt back);; _ <~ put ("_m_" ++ x) v;; kret v
           else kret VNone)). apply st_at; [now apply IHc|now apply IHp|assumption].
Qed.
Lemma c_at x c p en t : Pe c -> Pe p -> inst_ok (IAt x c p en t) = true ->
  costs 0 (c <~ eval rt c VNone;; c <~ need_bool c;;
           if (c : bool) then
             back <~ io io_pos;; p <~ eval rt p VNone;; p <~ need_int p;; _ <~ io (io_seek rt p);;
             v <~ run_ty rt "" en t;; v <~ present v;; _ <~ io (io_seek rt back);; _ <~ put ("_m_" ++ x) v;; kret v
           else kret VNone) none (fun v => size v <= cached) 0 (expr_cost c + expr_cost p + 8 * cached) 0.
Proof.
  intros Hc Hp O. change (expr_ok c && expr_ok p && at_ok t = true) in O. apply andb_true_iff in O as [O Ot]. apply andb_true_iff in O as [Oc Op]. destruct (Hc Oc) as [C0 C1]. destruct (Hp Op) as [P0 P1].
  eapply c_then with (c1 := expr_cost c) (c2 := expr_cost p + 8 * cached); [apply C1| |lia]. intros v _.
  eapply c_then with (c1 := 0) (c2 := expr_cost p + 8 * cached); [apply c_need_bool| |lia]. intros [|] _; [|eapply c_up; [apply c_ret; [unfold cached; cbn; lia|unfold none; lia]|lia|unfold cached; lia|lia]].
  intros fs s G C. unfold kbind at 1. unfold bind at 1. unfold io at 1. unfold bind at 1. unfold io_pos at 1. cbn [ret fst snd].
  unfold kbind at 1, bind at 1. pose proof (proj1 all_still p Op VNone fs s) as St. specialize (P1 VNone fs s G C). destruct (eval rt p VNone fs s) as [[[w f1]|e] s1]; [|exact I]. destruct P1 as [G1 [B1 [C2 [T1 [L1 [E1 _]]]]]]. cbn [fst snd].
  unfold kbind at 1, bind at 1. destruct w; cbn [need_int ret fst snd]; try exact I.
  unfold kbind at 1, bind at 1. unfold io at 1, bind at 1. unfold io_seek at 1. cbn [ret fst snd].
  set (s2 := set_pos (auto_align rt s1) (Z.to_nat z)). assert (S2 : s_buf s2 = s_buf s1 /\ (s_left s2 = s_left s1 \/ s_left s2 = 0)) by (unfold s2; destruct rt; cbn; auto). clearbody s2.
  unfold kbind at 1, bind at 1. pose proof (at_value en t "" f1 s2 Ot) as V. destruct (run_ty rt "" en t f1 s2) as [[[o f2]|e] s3]; [|exact I]. destruct V as [-> [V1 [V2 V3]]]. cbn [fst snd].
  unfold kbind at 1, bind at 1. destruct o as [u|]; cbn [present ret fst snd]; [|exact I]. specialize (V3 u eq_refl).
  unfold kbind at 1, bind at 1. unfold io at 1, bind at 1. unfold io_seek at 1. cbn [ret fst snd].
  set (s4 := set_pos (auto_align rt s3) (Z.to_nat (Z.of_nat (s_pos s)))).
  assert (S4 : s_buf s4 = s_buf s /\ (s_left s4 = s_left s1 \/ s_left s4 = 0) /\ s_pos s4 = s_pos s).
  { unfold s4. destruct S2 as [S2 S3]. assert (s_buf (auto_align rt s3) = s_buf s3 /\ (s_left (auto_align rt s3) = s_left s3 \/ s_left (auto_align rt s3) = 0)) as [A1 A2] by (destruct rt; cbn; auto).
    cbn [set_pos s_buf s_left s_pos]. split; [congruence|]. split; [|apply Nat2Z.id]. destruct A2 as [->|]; [|auto]. destruct V2 as [->|]; auto. }
  clearbody s4. destruct S4 as [S41 [S42 S43]].
  destruct St as [St1 [St2 St3]].
  assert (G4 : good s4 /\ taken s <= taken s4).
  { destruct G as [GL GP]. destruct G1 as [GL1 _]. unfold good, taken. rewrite S41, S43. assert (0 <= s_left s4 <= s_left s) by (destruct S42 as [E4|E4]; destruct St3 as [E5|E5]; lia). repeat split; lia. }
  destruct G4 as [G4 T4]. pose proof (c_put ("_m_" ++ x) u (fun _ => V3) f1 s4 G4 C2) as Pu. unfold kbind, bind. destruct (put ("_m_" ++ x) u f1 s4) as [[[q f3]|e] s5]; [|exact I].
  destruct Pu as [G5 [B5 [C5 [T5 [L5 [E5 _]]]]]]. cbn [kret ret fst snd]. split; [exact G5|]. split; [congruence|]. split; [exact C5|]. split; [lia|]. split; [lia|]. split; [unfold none in *; lia|exact V3].
Qed.

(** ** Everything *)
Lemma c_inst sc (m : K pyval) Q c : costs 0 m none Q 0 c 0 -> costs 0 (fun fs => r <- m (outer sc fs);; ret (fst r, inner sc fs ++ snd r)) none Q 0 c 0.
Proof. apply c_outer. Qed.
Ltac v1 H := eapply c_then with (c2 := 0); [apply H| |lia]; intros.
Lemma trivially {A} (m : K A) (P Q : A -> Prop) c : costs 0 m none P 0 c 0 -> (forall x, P x -> Q x) -> costs 0 m none Q 0 c 0.
Proof. intros H HQ. eapply c_weaken; [exact H|lia|intros x Hx; split; [lia|auto]|lia|lia|lia]. Qed.
Lemma c_done v (P : pyval -> Prop) : P v -> costs 0 (kret v) none P 0 0 0. Proof. intros H. apply c_ret; [exact H|unfold none; lia]. Qed.
Lemma c_upto v (P : pyval -> Prop) c : 0 <= c -> P v -> costs 0 (kret v) none P 0 c 0. Proof. intros Hc H. eapply c_up; [apply c_done, H|lia|lia|lia]. Qed.
Lemma li {e} z : little e small (VInt z). Proof. intros _. apply small_int. Qed.
Lemma lb {e} z : little e small (VBool z). Proof. intros _. apply small_bool. Qed.
Lemma lbin {e} o y z : little e small (binary o y z). Proof. destruct o; intros _; (apply small_int || apply small_bool). Qed.

Lemma size_e : forall e, match e with EInst _ i => Pi i | EDot a _ | EIs a _ _ | EEqS a _ | ENot a | EToI a | EToS a | EDecode a _ => Pe a | EAnd a b | EOr a b | EBin _ a b | ECat a b => Pe a /\ Pe b | EIf c a b => Pe c /\ Pe a /\ Pe b | _ => True end -> Pe e.
Proof.
  intros e H O. destruct e.
  - split; [cbn; lia|]. intros item. apply c_done. apply lb.
  - split; [cbn; lia|]. intros item. apply c_done. apply li.
  - split; [cbn; lia|]. intros item. apply c_done. intros X. discriminate X.
  - split; [cbn; lia|]. intros item. eapply trivially; [apply c_get|]. intros v _ X. discriminate X.
  - change (expr_ok e = true) in O. destruct (H O) as [C0 C1]. split; [exact C0|]. intros item. cbn [eval]. change (expr_cost (EDot e x)) with (expr_cost e).
    eapply c_then with (c2 := 0); [apply C1| |lia]. intros o _. apply c_same. intros fs s. destruct (getattr x o); [|exact I]. split; [reflexivity|]. split; [reflexivity|]. intros X. discriminate X.
  - split; [cbn; lia|]. intros item. apply c_done. intros X. discriminate X.
  - split; [cbn; lia|]. intros item. cbn [eval]. change (expr_cost EEof) with 0. eapply c_val with (P := any); [eapply c_up; [apply c_io with (w := fun _ => 0), cm_eof|lia|lia|lia]|]. intros. apply lb.
  - split; [cbn; lia|]. intros item. cbn [eval]. change (expr_cost ESize) with 0. eapply c_val with (P := any); [apply c_quiet; intros s; split; [reflexivity|exact I]|]. intros. apply li.
  - split; [cbn; lia|]. intros item. cbn [eval]. change (expr_cost EPos) with 0. eapply c_val with (P := any); [apply c_quiet; intros s; split; [reflexivity|exact I]|]. intros. apply li.
  - change (expr_ok e = true) in O. destruct (H O) as [C0 C1]. split; [exact C0|]. intros item. cbn [eval]. change (expr_cost (EIs e E m)) with (expr_cost e). eapply c_val; [apply C1|]. intros. apply lb.
  - change (expr_ok e = true) in O. destruct (H O) as [C0 C1]. split; [exact C0|]. intros item. cbn [eval]. change (expr_cost (EEqS e s)) with (expr_cost e).
    eapply c_then with (c2 := 0); [apply C1| |lia]. intros v _. eapply c_val; [apply c_need_str|]. intros. apply lb.
  - change (expr_ok e = true) in O. destruct (H O) as [C0 C1]. split; [exact C0|]. intros item. cbn [eval]. change (expr_cost (ENot e)) with (expr_cost e).
    eapply c_then with (c2 := 0); [apply C1| |lia]. intros v _. eapply c_val; [apply c_need_bool|]. intros. apply lb.
  - destruct H as [Ha Hb]. change (expr_ok e1 && expr_ok e2 = true) in O. oks. destruct (Ha ltac:(assumption)) as [A0 A1]. destruct (Hb ltac:(assumption)) as [B0 B1]. change (expr_cost (EAnd e1 e2)) with (expr_cost e1 + expr_cost e2).
    split; [lia|]. intros item. cbn [eval]. eapply c_then; [apply A1| |apply Z.le_refl]. intros v _. eapply c_then with (c1 := 0); [apply c_need_bool| |apply Z.le_refl]. intros [|] _; [|apply c_upto; [lia|apply lb]]. eapply trivially; [apply B1|]. intros x Hx X. exact (Hx X).
  - destruct H as [Ha Hb]. change (expr_ok e1 && expr_ok e2 = true) in O. oks. destruct (Ha ltac:(assumption)) as [A0 A1]. destruct (Hb ltac:(assumption)) as [B0 B1]. change (expr_cost (EOr e1 e2)) with (expr_cost e1 + expr_cost e2).
    split; [lia|]. intros item. cbn [eval]. eapply c_then; [apply A1| |apply Z.le_refl]. intros v _. eapply c_then with (c1 := 0); [apply c_need_bool| |apply Z.le_refl]. intros [|] _; [apply c_upto; [lia|apply lb]|]. eapply trivially; [apply B1|]. intros x Hx X. exact (Hx X).
  - destruct H as [Ha Hb]. change (expr_ok e1 && expr_ok e2 = true) in O. oks. destruct (Ha ltac:(assumption)) as [A0 A1]. destruct (Hb ltac:(assumption)) as [B0 B1]. change (expr_cost (EBin o e1 e2)) with (expr_cost e1 + expr_cost e2).
    split; [lia|]. intros item. cbn [eval]. eapply c_then; [apply A1| |apply Z.le_refl]. intros v _. eapply c_then with (c1 := 0); [apply c_need_int| |apply Z.le_refl]. intros y _.
    eapply c_then with (c2 := 0); [apply B1| |lia]. intros w _. eapply c_val; [apply c_need_int|]. intros. apply lbin.
  - destruct H as [Hc [Ha Hb]]. change (expr_ok e1 && expr_ok e2 && expr_ok e3 = true) in O. oks. destruct (Hc ltac:(assumption)) as [C0 C1]. destruct (Ha ltac:(assumption)) as [A0 A1]. destruct (Hb ltac:(assumption)) as [B0 B1].
    change (expr_cost (EIf e1 e2 e3)) with (expr_cost e1 + expr_cost e2 + expr_cost e3). split; [lia|]. intros item. cbn [eval]. eapply c_then with (c2 := expr_cost e2 + expr_cost e3); [apply C1| |lia]. intros v _.
    eapply c_then with (c1 := 0); [apply c_need_bool| |apply Z.le_refl]. intros [|] _.
    + eapply c_up; [eapply trivially; [apply A1|]|lia|lia|lia]. intros x Hx X. change (small e2 && small e3 = true) in X. oks. auto.
    + eapply c_up; [eapply trivially; [apply B1|]|lia|lia|lia]. intros x Hx X. change (small e2 && small e3 = true) in X. oks. auto.
  - change (expr_ok e = true) in O. destruct (H O) as [C0 C1]. split; [exact C0|]. intros item. cbn [eval]. change (expr_cost (EToI e)) with (expr_cost e).
    eapply c_then with (c2 := 0); [apply C1| |lia]. intros v _. eapply c_val with (P := any); [apply c_quiet; intros s; unfold lift; destruct (to_i v); [split; [reflexivity|exact I]|exact I]|]. intros. apply li.
  - change (expr_ok e = true) in O. destruct (H O) as [C0 C1]. split; [exact C0|]. intros item. cbn [eval]. change (expr_cost (EToS e)) with (expr_cost e).
    eapply c_then with (c2 := 0); [apply C1| |lia]. intros v _. eapply c_val; [apply c_need_int|]. intros x X. discriminate X.
  - destruct H as [Ha Hb]. change (expr_ok e1 && expr_ok e2 = true) in O. oks. destruct (Ha ltac:(assumption)) as [A0 A1]. destruct (Hb ltac:(assumption)) as [B0 B1]. change (expr_cost (ECat e1 e2)) with (expr_cost e1 + expr_cost e2).
    split; [lia|]. intros item. cbn [eval]. eapply c_then; [apply A1| |apply Z.le_refl]. intros v _. eapply c_then with (c1 := 0); [apply c_need_str| |apply Z.le_refl]. intros y _.
    eapply c_then with (c2 := 0); [apply B1| |lia]. intros w _. eapply c_val; [apply c_need_str|]. intros x X. discriminate X.
  - change (expr_ok e = true) in O. destruct (H O) as [C0 C1]. split; [exact C0|]. intros item. cbn [eval]. change (expr_cost (EDecode e c)) with (expr_cost e).
    eapply c_then with (c2 := 0); [apply C1| |lia]. intros v _. apply c_same. intros fs s. destruct v; try exact I. unfold bind, lift. destruct (py_decode c l); [|exact I]. cbn [ret]. split; [reflexivity|]. split; [reflexivity|]. intros X. discriminate X.
  - change (inst_ok i = true) in O. destruct (H O) as [C0 C1]. split; [exact C0|]. intros item. apply (c_inst sc (run_inst rt i)). eapply trivially; [apply C1|]. intros x Hx _. exact Hx.
Qed.
Lemma size_i i : match i with IValue _ e => Pe e | IAt _ c p _ _ => Pe c /\ Pe p end -> Pi i.
Proof.
  intros H O. destruct i as [x e|x c p en t].
  - change (expr_ok e && small e = true) in O. oks. destruct (H ltac:(assumption)) as [C0 C1]. change (inst_cost (IValue x e)) with (expr_cost e + 8 * cached). split; [unfold cached; lia|].
    apply (c_cached x (v <~ eval rt e VNone;; _ <~ put ("_m_" ++ x) v;; kret v)); [unfold cached; lia|].
    eapply c_then with (c2 := 8 * cached); [apply C1| |lia]. intros v Hv. specialize (Hv ltac:(assumption)).
    eapply c_then with (c1 := 8 * cached) (c2 := 0); [|intros _ _; apply c_done; exact Hv|lia].
    intros fs s G C. pose proof (c_put ("_m_" ++ x) v (fun _ => Hv) fs s G C) as P. destruct (put ("_m_" ++ x) v fs s) as [[[u f1]|e1] s1]; [|exact I]. destruct P as [P1 [P2 [P3 [P4 [P5 [P6 P7]]]]]]. split; [exact P1|split; [exact P2|split; [exact P3|split; [exact P4|split; [exact P5|split; [|exact P7]]]]]]. unfold none in *. lia.
  - destruct H as [Hc Hp]. pose proof (c_at x c p en t Hc Hp O) as A. change (expr_ok c && expr_ok p && at_ok t = true) in O. oks. destruct (Hc ltac:(assumption)) as [C0 _]. destruct (Hp ltac:(assumption)) as [P0 _].
    change (inst_cost (IAt x c p en t)) with (expr_cost c + expr_cost p + 8 * cached). split; [unfold cached; lia|]. apply (c_cached x (c <~ eval rt c VNone;; c <~ need_bool c;;
           if (c : bool) then
             back <~ io io_pos;; p <~ eval rt p VNone;; p <~ need_int p;; _ <~ io (io_seek rt p);;
             v <~ run_ty rt "" en t;; v <~ present v;; _ <~ io (io_seek rt back);; _ <~ put ("_m_" ++ x) v;; kret v
           else kret VNone)); [unfold cached; lia|exact A].
Qed.
Lemma c_one one k : bounded one k -> 0 <= per_bit k -> costs 0 (v <~ one;; present v) size any (per_bit k) (fixed k) (least k).
Proof.
  intros H Hk. eapply c_seq with (c2 := 0) (l2 := 0); [exact H| |lia|lia]. intros o _. pose proof (c_present 0 o) as P. eapply c_weaken; [exact P|lia|intros v _; split; [lia|exact I]|exact Hk|lia|lia].
Qed.
Lemma c_list (m : K (list pyval)) a l : 0 <= a -> costs 0 m lsize any a 0 l -> costs 0 (l <~ m;; kret (Some (VList l))) osize any a 8 l.
Proof.
  intros Ha H. eapply c_weaken with (a := a) (c := 8) (l := l) (w0 := 0) (w := osize) (Q := any); [|lia|intros x Hx; split; [lia|exact Hx]|lia|lia|lia].
  intros fs s G C. specialize (H fs s G C). unfold kbind, bind. destruct (m fs s) as [[[x f1]|e] s1]; [|exact I]. destruct H as [P1 [P2 [P3 [P4 [P5 [P6 P7]]]]]]. cbn [kret ret fst snd osize size].
  fold (lsize x). split; [exact P1|split; [exact P2|split; [exact P3|split; [exact P4|split; [exact P5|split; [|exact P7]]]]]]. lia.
Qed.
Lemma size_r r : match r with Times e | Until e => Pe e | _ => True end -> Pr r.
Proof.
  intros H one k [Ka [Kc Kl]] B O. destruct r as [| |e|e]; cbn [rep_ok] in O.
  - split; [repeat split; assumption|exact B].
  - apply Z.leb_le in O. destruct (up_to_enough (fixed k + 0) (least k) ltac:(lia) O) as [U0 U1]. unfold nonneg, bounded. cbn [repeated per_bit fixed least]. unfold many.
    split; [repeat split; lia|]. cbn [run_rep]. apply c_list; [lia|]. apply c_turns. intros n. apply (c_eof_loop rt _ _ (least k)); [lia|lia|]. rewrite Z.add_0_r. apply c_absorb; [apply c_one; assumption|exact Kc|exact O].
  - apply andb_true_iff in O as [Oe O]. apply Z.leb_le in O. destruct (H Oe) as [C0 C1]. destruct (up_to_enough (fixed k + 0) (least k) ltac:(lia) O) as [U0 U1]. unfold nonneg, bounded. cbn [repeated per_bit fixed least]. unfold many.
    split; [repeat split; lia|]. change (costs 0 (n <~ eval rt e VNone;; n <~ need_int n;; l <~ times (v <~ one;; present v) (Z.to_nat n);; kret (Some (VList l))) osize any (per_bit k + up_to (fixed k + 0) (least k)) (expr_cost e + 8) 0).
    eapply c_seq with (c1 := expr_cost e) (c2 := 8) (l1 := 0) (l2 := 0); [eapply c_up; [apply C1|lia|lia|lia]| |lia|lia]. intros v _.
    eapply c_seq with (c1 := 0) (c2 := 8) (l1 := 0) (l2 := 0); [eapply c_up; [apply c_need_int|lia|lia|lia]| |lia|lia]. intros n _.
    apply c_list; [lia|]. apply (c_times _ _ (least k)); [lia|lia|]. rewrite Z.add_0_r. apply c_absorb; [apply c_one; assumption|exact Kc|exact O].
  - apply andb_true_iff in O as [Oe O]. apply Z.leb_le in O. destruct (H Oe) as [C0 C1]. destruct (up_to_enough (fixed k + expr_cost e) (least k) ltac:(lia) O) as [U0 U1]. unfold nonneg, bounded. cbn [repeated per_bit fixed least]. unfold many.
    split; [repeat split; lia|]. change (costs 0 (l <~ turns (until (v <~ one;; present v) (fun v => w <~ eval rt e v;; need_bool w));; kret (Some (VList l))) osize any (per_bit k + up_to (fixed k + expr_cost e) (least k)) 8 (least k)).
    apply c_list; [lia|]. apply c_turns. intros n. apply c_until; try assumption; [apply c_one; assumption|]. intros v. eapply c_then with (c2 := 0); [apply C1| |lia]. intros w _. eapply trivially; [apply c_need_bool|]. intros; exact I.
Qed.
Lemma const_nonneg e : 0 <= const_bits e. Proof. unfold const_bits. destruct e; lia. Qed.
Lemma all_sizes : (forall e, Pe e) /\ (forall i, Pi i) /\ (forall t, Pty t) /\ (forall cs, Pcs cs) /\ (forall k, Pk k) /\ (forall r, Pr r) /\ (forall q, Pq q) /\ (forall t, Pt t).
Proof.
  apply (ksy_mind Pe Pi Pty Pcs Pk Pr Pq Pt).
  1-21: intros; apply size_e; tauto.
  1-2: intros; apply size_i; tauto.
  (* types *)
  - intros n O. change ((0 <=? n) = true) in O. apply Z.leb_le in O. split; [repeat split; cbn; lia|]. intros loc en. unfold bounded. cbn [run_ty ty_cost per_bit fixed least]. apply c_some; [|lia]. apply cm_enum. now apply cm_bits.
  - intros O. split; [repeat split; cbn; lia|]. intros loc en. unfold bounded. cbn [run_ty ty_cost per_bit fixed least]. apply c_some; [|lia]. apply cm_flag.
  - intros f O. split; [repeat split; destruct f; cbn; lia|]. intros loc en. unfold bounded. cbn [run_ty ty_cost per_bit fixed least]. apply c_some; [|lia]. apply cm_enum, cm_number.
  - intros e IH O. change (expr_ok e = true) in O. destruct (IH O) as [C0 _]. split; [repeat split; cbn [ty_cost per_bit fixed least]; [lia|lia|apply const_nonneg]|]. intros loc en. unfold bounded. change (ty_cost (TBytes e)) with (Cost 1 (expr_cost e + 8) (const_bits e)). cbn [per_bit fixed least].
    change (costs 0 (n <~ eval rt e VNone;; n <~ need_int n;; v <~ io (vbytes rt n);; kret (Some v)) osize any 1 (expr_cost e + 8) (const_bits e)).
    apply (c_length e (fun n => v <~ io (vbytes rt n);; kret (Some v)) osize any 1 8 (fun n => 8 * Z.max 0 n)); try assumption; try lia; try reflexivity. intros n. apply c_some; [apply cm_vbytes|lia].
  - intros O. split; [repeat split; cbn; lia|]. intros loc en. unfold bounded. cbn [run_ty ty_cost per_bit fixed least]. apply c_some; [|lia]. apply cm_vfull.
  - intros c e IH O. change (expr_ok e = true) in O. destruct (IH O) as [C0 _]. split; [repeat split; cbn [ty_cost per_bit fixed least]; [lia|lia|apply const_nonneg]|]. intros loc en. unfold bounded. change (ty_cost (TStr c e)) with (Cost 1 (expr_cost e + 8) (const_bits e)). cbn [per_bit fixed least].
    change (costs 0 (n <~ eval rt e VNone;; n <~ need_int n;; v <~ io (vstr rt c n);; kret (Some v)) osize any 1 (expr_cost e + 8) (const_bits e)).
    apply (c_length e (fun n => v <~ io (vstr rt c n);; kret (Some v)) osize any 1 8 (fun n => 8 * Z.max 0 n)); try assumption; try lia; try reflexivity. intros n. apply c_some; [apply cm_vstr|lia].
  - intros c O. split; [repeat split; cbn; lia|]. intros loc en. unfold bounded. cbn [run_ty ty_cost per_bit fixed least]. apply c_some; [|lia]. apply cm_vstr_full.
  - intros x O. split; [repeat split; cbn [ty_cost per_bit fixed least]; unfold blen; lia|]. intros loc en. unfold bounded. cbn [run_ty ty_cost per_bit fixed least]. apply c_some; [|lia]. apply cm_expect.
  - intros t IH z O. change (ty_ok t = true) in O. destruct (IH O) as [N B]. split; [exact N|]. intros loc en. change (ty_cost (TValid t z)) with (ty_cost t). unfold bounded. cbn [run_ty].
    change (costs 0 (v <~ run_ty rt loc en t;; v <~ present v;; n <~ need_int v;; if n =? z then kret (Some v) else fun _ => fail (ValidationNotEqualError (VInt z) v loc)) osize any (per_bit (ty_cost t)) (fixed (ty_cost t)) (least (ty_cost t))).
    destruct N as [N1 [N2 N3]].
    eapply c_seq with (c2 := 0) (l2 := 0); [apply B| |lia|lia]. intros o _.
    eapply c_seq with (c1 := 0) (c2 := 0) (l1 := 0) (l2 := 0); [eapply c_weaken; [apply (c_present 0 o)|lia|intros v _; split; [apply Z.le_refl|exact I]|exact N1|lia|lia]| |lia|lia]. intros v _.
    pose proof (c_shift _ _ _ _ _ _ _ (size v) (c_need_int v)) as NI. eapply c_seq with (c1 := 0) (c2 := 0) (l1 := 0) (l2 := 0); [eapply c_weaken; [exact NI|lia|intros x Hx; split; [apply Z.le_refl|exact Hx]|exact N1|lia|lia]| |lia|lia]. intros n _.
    destruct (n =? z); [|apply c_fail]. eapply c_up; [apply c_ret; [exact I|unfold none; cbn [osize]; lia]|lia|lia|lia].
  - intros t IH O. change (typ_ok t = true) in O. destruct (IH O) as [N B]. split; [exact N|]. intros loc en fs s G C. change (ty_cost (TImported t)) with (typ_cost t).
    change (match (r <- run_typ rt t [];; ret (Some (fst r), fs)) s with
      | (Ok (x, fs'), s') => good s' /\ s_buf s' = s_buf s /\ caches_small fs' /\ taken s <= taken s' /\ taken s + least (typ_cost t) <= taken s' /\
          8 * (fsize fs' + osize x) <= 8 * (fsize fs + 0) + per_bit (typ_cost t) * (taken s' - taken s) + fixed (typ_cost t) /\ any x
      | _ => True end).
    unfold bind. assert (C0 : caches_small []) by (intros ? []). specialize (B [] s G C0). destruct (run_typ rt t [] s) as [[[v f]|e] s1]; [|exact I]. destruct B as [P1 [P2 [P3 [P4 [P5 [P6 P7]]]]]]. cbn [ret fst osize].
    pose proof (fsize_nonneg f). change (fsize []) with 0 in P6. split; [exact P1|]. split; [exact P2|]. split; [exact C|]. split; [exact P4|]. split; [exact P5|]. split; [lia|exact I].
  - intros t IH O. change (typ_ok t = true) in O. destruct (IH O) as [N B]. split; [exact N|]. intros loc en. change (ty_cost (TLocal t)) with (typ_cost t). unfold bounded. change (costs 0 (v <~ run_typ rt t;; kret (Some v)) osize any (per_bit (typ_cost t)) (fixed (typ_cost t)) (least (typ_cost t))).
    eapply c_seq with (c2 := 0) (l2 := 0); [exact B| |lia|lia]. intros v _. eapply c_up; [apply c_ret; [exact I|cbn [osize]; lia]|apply N|lia|lia].
  - intros e IHe t IHt O. change (expr_ok e && ty_ok t = true) in O. oks. destruct (IHe ltac:(assumption)) as [C0 _]. destruct (IHt ltac:(assumption)) as [[N1 [N2 N3]] B].
    change (ty_cost (TSized e t)) with (Cost (per_bit (ty_cost t)) (expr_cost e + fixed (ty_cost t)) (const_bits e)). split; [repeat split; cbn [per_bit fixed least]; [lia|lia|apply const_nonneg]|]. intros loc en. unfold bounded. cbn [per_bit fixed least].
    change (costs 0 (n <~ eval rt e VNone;; n <~ need_int n;; fun fs => substream rt n (run_ty rt loc en t fs)) osize any (per_bit (ty_cost t)) (expr_cost e + fixed (ty_cost t)) (const_bits e)).
    apply (c_length e (fun n fs => substream rt n (run_ty rt loc en t fs)) osize any _ _ (fun n => 8 * Z.max 0 n)); try assumption; try lia; try reflexivity. intros n. eapply c_substream; [exact N1|apply B].
  - intros e IHe cs IHc O. change (expr_ok e && cases_ok cs = true) in O. oks. destruct (IHe ltac:(assumption)) as [C0 C1]. destruct (IHc ltac:(assumption)) as [[N1 [N2 N3]] B].
    change (ty_cost (TSwitch e cs)) with (Cost (per_bit (cases_cost cs)) (expr_cost e + fixed (cases_cost cs)) (least (cases_cost cs))). split; [repeat split; cbn [per_bit fixed least]; lia|]. intros loc en. unfold bounded. cbn [per_bit fixed least].
    change (costs 0 (v <~ eval rt e VNone;; run_cases rt loc en v cs) osize any (per_bit (cases_cost cs)) (expr_cost e + fixed (cases_cost cs)) (least (cases_cost cs))).
    eapply c_seq with (l1 := 0); [eapply c_up; [apply C1|exact N1|apply Z.le_refl|lia]|intros v _; apply B|lia|lia].
  (* cases *)
  - intros O. split; [repeat split; cbn; lia|]. intros loc en v. unfold bounded. cbn [run_cases cases_cost per_bit fixed least]. apply c_ret; [exact I|cbn; lia].
  - intros t IH O. change (ty_ok t = true) in O. destruct (IH O) as [N B]. split; [exact N|]. intros loc en v. apply B.
  - intros k _ t IHt cs IHc O. change (ty_ok t && cases_ok cs = true) in O. oks. destruct (IHt ltac:(assumption)) as [[N1 [N2 N3]] B]. destruct (IHc ltac:(assumption)) as [[M1 [M2 M3]] D].
    change (cases_cost (CCons k t cs)) with (either (ty_cost t) (cases_cost cs)). unfold either. split; [repeat split; cbn [per_bit fixed least]; lia|]. intros loc en v. unfold bounded. cbn [per_bit fixed least].
    assert (G1 : costs 0 (run_ty rt loc en t) osize any (Z.max (per_bit (ty_cost t)) (per_bit (cases_cost cs))) (Z.max (fixed (ty_cost t)) (fixed (cases_cost cs))) (Z.min (least (ty_cost t)) (least (cases_cost cs)))) by (eapply c_up; [apply B|lia|lia|lia]).
    assert (G2 : costs 0 (run_cases rt loc en v cs) osize any (Z.max (per_bit (ty_cost t)) (per_bit (cases_cost cs))) (Z.max (fixed (ty_cost t)) (fixed (cases_cost cs))) (Z.min (least (ty_cost t)) (least (cases_cost cs)))) by (eapply c_up; [apply D|lia|lia|lia]).
    intros fs s G C. specialize (G1 fs s G C). specialize (G2 fs s G C). cbn [run_cases]. match goal with |- context [if ?c then _ else _] => destruct c end; [exact G1|exact G2].
  (* keys *)
  - intros; exact I.
  - intros; exact I.
  - intros; exact I.
  (* repetition *)
  - apply size_r; exact I.
  - apply size_r; exact I.
  - intros; apply size_r; assumption.
  - intros; apply size_r; assumption.
  (* attributes *)
  - intros O. split; [repeat split; cbn; lia|]. intros path i after. cbn [run_attrs seq_cost per_bit fixed least]. apply c_ret; [exact I|unfold none; lia].
  - intros x c IHc r IHr en t IHt q IHq O. change (negb (is_cache x) && expr_ok c && ty_ok t && seq_ok q && rep_ok r (ty_cost t) = true) in O. oks.
    destruct (IHc ltac:(assumption)) as [C0 C1]. destruct (IHt ltac:(assumption)) as [NT BT]. destruct (IHq ltac:(assumption)) as [[M1 [M2 M3]] D].
    change (seq_cost (Attr x c r en t q)) with (followed c (repeated r (ty_cost t)) (seq_cost q)).
    assert (NR : nonneg (repeated r (ty_cost t))) by (destruct (IHr (run_ty rt "" en t) (ty_cost t) NT (BT _ _) ltac:(assumption)) as [NR _]; exact NR). destruct NR as [R1 [R2 R3]].
    unfold followed. set (j := repeated r (ty_cost t)) in *. set (k := seq_cost q) in *.
    split; [repeat split; cbn [per_bit fixed least]; [lia|lia|destruct c; lia]|]. intros path i after. cbn [per_bit fixed least].
    destruct (IHr (run_ty rt (attr_path path i) en t) (ty_cost t) NT (BT _ _) ltac:(assumption)) as [_ BR]. fold j in BR. unfold bounded in BR.
    set (A := Z.max (per_bit j) (per_bit k)). assert (HA : 0 <= A) by lia. set (lc := match c with ETrue => least j | _ => 0 end).
    change (costs 0 (_ <~ (if after && negb (is_bits t) then io align_to_byte else kret tt);; c <~ eval rt c VNone;; c <~ need_bool c;;
      _ <~ (if (c : bool) then v <~ run_rep rt (run_ty rt (attr_path path i) en t) r;; match v with Some v => put x v | None => kret tt end else kret tt);;
      run_attrs rt path (S i) (is_bits t) q) none any A (expr_cost c + fixed j + fixed k) (lc + least k)).
    eapply c_seq with (c1 := 0) (c2 := expr_cost c + fixed j + fixed k) (l1 := 0) (l2 := lc + least k) (w1 := none) (P := any); [| |lia|lia].
    { destruct (after && negb (is_bits t)); [eapply c_up; [apply c_align|lia|lia|lia]|eapply c_up; [apply c_ret; [exact I|unfold none; lia]|lia|lia|lia]]. }
    intros u0 _. change (none u0) with 0.
    assert (CT : costs 0 (eval rt c VNone) none (fun v => c = ETrue -> v = VBool true) 0 (expr_cost c) 0).
    { assert (DT : c = ETrue \/ c <> ETrue) by (destruct c; auto; right; discriminate). destruct DT as [DT|DT]; [subst c; apply c_ret; [reflexivity|unfold none; lia]|]. eapply trivially; [apply C1|]. intros v _ E. contradiction. }
    eapply c_seq with (c1 := expr_cost c) (c2 := fixed j + fixed k) (l1 := 0) (l2 := lc + least k); [eapply c_up; [exact CT|lia|lia|lia]| |lia|lia]. intros v Hv. change (none v) with 0.
    eapply c_seq with (c1 := 0) (c2 := fixed j + fixed k) (l1 := 0) (l2 := lc + least k); [eapply c_up; [apply c_need_bool|lia|lia|lia]| |lia|lia]. intros b Hb. change (none b) with 0. cbv beta in Hb.
    eapply c_seq with (c1 := fixed j) (c2 := fixed k) (l1 := lc) (l2 := least k) (w1 := none) (P := any); [| |lia|lia].
    + destruct b.
      * eapply c_seq with (c1 := fixed j) (c2 := 0) (l1 := least j) (l2 := 0); [eapply c_up; [exact BR|lia|lia|lia]| |lia|unfold lc; destruct c; lia]. intros [w|] _.
        -- cbn [osize]. eapply c_up; [apply c_put|lia|lia|lia]. intros Cx. match goal with H : negb (is_cache x) = true |- _ => rewrite Cx in H; discriminate H end.
        -- eapply c_up; [apply c_ret; [exact I|unfold none; cbn; lia]|lia|lia|lia].
      * assert (L0 : lc = 0). { unfold lc. destruct c; try reflexivity. specialize (Hv eq_refl). subst v. discriminate Hb. }
        rewrite L0. eapply c_up; [apply c_ret; [exact I|unfold none; lia]|lia|lia|lia].
    + intros u1 _. change (none u1) with 0. eapply c_up; [apply D|unfold A; lia|lia|lia].
  (* types *)
  - intros path q IH O. change (seq_ok q = true) in O. destruct (IH O) as [[N1 [N2 N3]] B]. change (typ_cost (Typ path q)) with (Cost (per_bit (seq_cost q)) (8 + fixed (seq_cost q)) (least (seq_cost q))). split; [repeat split; cbn [per_bit fixed least]; lia|]. cbn [per_bit fixed least].
    intros fs s G C. change (match (r <- run_attrs rt path 0 false q ([] :: fs);; ret (VObj (class_name path) (hd [] (snd r)), tl (snd r))) s with
      | (Ok (x, fs'), s') => good s' /\ s_buf s' = s_buf s /\ caches_small fs' /\ taken s <= taken s' /\ taken s + least (seq_cost q) <= taken s' /\
          8 * (fsize fs' + size x) <= 8 * (fsize fs + 0) + per_bit (seq_cost q) * (taken s' - taken s) + (8 + fixed (seq_cost q)) /\ any x
      | _ => True end).
    assert (C0 : caches_small ([] :: fs)) by (intros a [<-|Ha] n v Hv; [destruct Hv|exact (C a Ha n v Hv)]).
    unfold bind. specialize (B path 0%nat false ([] :: fs) s G C0). destruct (run_attrs rt path 0 false q ([] :: fs) s) as [[[u f]|e] s1]; [|exact I]. destruct B as [P1 [P2 [P3 [P4 [P5 [P6 P7]]]]]]. cbn [ret fst snd].
    split; [exact P1|]. split; [exact P2|]. split; [intros a Ha; apply P3; destruct f; [destruct Ha|right; exact Ha]|]. split; [exact P4|]. split; [exact P5|]. split; [|exact I].
    assert (FS : fsize f = asize (hd [] f) + fsize (tl f)) by (destruct f; reflexivity). assert (F0 : fsize ([] :: fs) = fsize fs) by reflexivity. rewrite F0 in P6. cbn [size]. fold (asize (hd [] f)). unfold none in P6. lia.
Qed.
End Main.
