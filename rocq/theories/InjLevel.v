(** Support for C59: the number of objects under construction stays the same. *)
From Verif Require Import PyBase Runtime Codec Spec RuntimeProofs Ksy KsySchema KsyTyped InjBase InjCheck.
From Coq Require Import ZifyBool Lia.
Open Scope string_scope.
Open Scope list_scope.
Open Scope Z_scope.
Definition level {A} (m : K A) : Prop := forall fs s v fs' s', fs <> [] -> m fs s = (Ok (v, fs'), s') -> List.length fs' = List.length fs.
Lemma same_ne (fs f : frames) : fs <> [] -> List.length f = List.length fs -> f <> [].
Proof. destruct fs, f; cbn [List.length]; congruence. Qed.
Lemma l_same {A} (m : K A) : (forall fs s v f s', m fs s = (Ok (v, f), s') -> f = fs) -> level m.
Proof. intros H fs s v f s' _ E. apply H in E. now subst. Qed.
Lemma l_ret {A} (a : A) : level (kret a). Proof. apply l_same. intros fs s v f s' H. now apply kret_inv in H as [_ [-> _]]. Qed.
Lemma l_bind {A B} (m : K A) (k : A -> K B) : level m -> (forall a, level (k a)) -> level (kbind m k).
Proof.
  intros Hm Hk fs s v f s' N H. apply kbind_inv in H as [a [f0 [s0 [H1 H2]]]]. apply Hm in H1; [|exact N]. apply Hk in H2; [congruence|]. eapply same_ne; eassumption.
Qed.
Lemma l_io {A} (m : M A) : level (io m). Proof. apply l_same. intros fs s v f s' H. now apply io_inv in H as [_ ->]. Qed.
Lemma l_int v : level (need_int v). Proof. apply l_same. intros. now apply need_int_inv in H. Qed.
Lemma l_bool v : level (need_bool v). Proof. apply l_same. intros. now apply need_bool_inv in H. Qed.
Lemma l_str v : level (need_str v). Proof. apply l_same. intros. now apply need_str_inv in H. Qed.
Lemma l_present v : level (present v). Proof. apply l_same. intros. now apply present_inv in H. Qed.
Lemma l_put x v : level (put x v).
Proof. intros fs s u f s' N H. unfold put, ret in H. assert (f = (hd [] fs ++ [(x, v)]) :: tl fs) as -> by congruence. destruct fs; [congruence|reflexivity]. Qed.
Lemma l_get sc x : level (get sc x).
Proof. apply l_same. intros fs s v f s' H. unfold get in H. destruct (lookup x _); unfold ret, fail in H; congruence. Qed.
Lemma l_dot x o : level (fun fs => match getattr x o with Some v => ret (v, fs) | None => fail (AttributeError x) end).
Proof. apply l_same. intros fs s v f s' H. destruct (getattr x o); unfold ret, fail in H; congruence. Qed.
Lemma l_decode c a : level (fun fs => match a with VBytes x => s <- lift (py_decode c x);; ret (VStr s, fs) | _ => fail TypeError end).
Proof. apply l_same. intros fs s v f s' H. destruct a; try discriminate. apply bind_inv in H as [z [s0 [_ H]]]. unfold ret in H. congruence. Qed.
Lemma l_inst sc (m : K pyval) : down sc = true -> level m -> level (fun fs => r <- m (outer sc fs);; ret (fst r, inner sc fs ++ snd r)).
Proof.
  intros D H fs s v f s' N E. apply bind_inv in E as [[a f0] [s0 [E1 E2]]]. unfold ret in E2. cbn [fst snd] in E2. assert (f = inner sc fs ++ f0) as -> by congruence.
  rewrite app_length. destruct sc; [|discriminate|]; cbn [outer inner] in *.
  - apply H in E1; [exact E1|exact N].
  - apply H in E1; [|discriminate]. rewrite E1. pose proof (f_equal (@List.length attrs) (app_removelast_last [] (l := fs) N)) as L. rewrite app_length in L. unfold frames, attrs in *. cbn [List.length] in *. congruence.
Qed.
Lemma l_cached x (m : K pyval) : level m -> level (fun fs => match lookup x (hd [] fs) with Some v => ret (v, fs) | None => m fs end).
Proof. intros H fs s v f s' N E. destruct (lookup x (hd [] fs)); [unfold ret in E; assert (f = fs) as -> by congruence; reflexivity|eapply H; eassumption]. Qed.
Lemma l_fail {A} e : level (fun _ : frames => @fail (A * frames) e). Proof. intros fs s v f s' _ H. discriminate. Qed.

Ltac lk := repeat first
  [ assumption
  | match goal with H : forall _, level _ |- level _ => apply H end
  | apply l_int | apply l_bool | apply l_str | apply l_present | apply l_put | apply l_get | apply l_io | apply l_dot | apply l_decode
  | apply l_ret | apply l_fail
  | apply l_bind; [|intros ?]
  | match goal with |- level (if ?c then _ else _) => destruct c end
  | match goal with |- level (match ?o with Some _ => _ | None => _ end) => destruct o end ].
Ltac dk := intros; repeat match goal with H : _ && _ = true |- _ => apply andb_true_iff in H as [? ?] end; repeat match goal with H : ?x = true -> _, H' : ?x = true |- _ => specialize (H H') end.
Section Induction.
Context (rt : runtime).
Lemma l_eof body n : level body -> level (until_eof rt body n).
Proof. intros H. induction n as [|n IH]; cbn [until_eof]; lk. Qed.
Lemma l_until body stop n : level body -> (forall v, level (stop v)) -> level (until body stop n).
Proof. intros H Hs. induction n as [|n IH]; cbn [until]; lk. Qed.
Lemma l_times body n : level body -> level (times body n).
Proof. intros H. induction n as [|n IH]; cbn [times]; lk. Qed.
Lemma l_turns {A} (loop : nat -> K A) : (forall n, level (loop n)) -> level (turns loop).
Proof. intros H fs s v f s' N E. eapply H; [exact N|exact E]. Qed.

Definition Le e := deep e = true -> forall item, level (eval rt e item).
Definition Li i := deep_inst i = true -> level (run_inst rt i).
Definition Lty t := deep_ty t = true -> forall loc en, level (run_ty rt loc en t).
Definition Lcs cs := deep_cases cs = true -> forall loc en v, level (run_cases rt loc en v cs).
Definition Lk (_ : key) := True.
Definition Lr r := deep_rep r = true -> forall one, level one -> level (run_rep rt one r).
Definition Lq q := deep_seq q = true -> forall path i after, level (run_attrs rt path i after q).
Definition Lt t := deep_typ t = true -> forall fs s v f s', run_typ rt t fs s = (Ok (v, f), s') -> List.length f = List.length fs.
Lemma all_level : (forall e, Le e) /\ (forall i, Li i) /\ (forall t, Lty t) /\ (forall cs, Lcs cs) /\ (forall k, Lk k) /\ (forall r, Lr r) /\ (forall q, Lq q) /\ (forall t, Lt t).
Proof.
  apply (ksy_mind Le Li Lty Lcs Lk Lr Lq Lt); unfold Le, Li, Lty, Lcs, Lk, Lr, Lq, Lt; try (intros; exact I).
  all: cbn [deep deep_inst deep_ty deep_cases deep_rep deep_seq deep_typ].
  all: try (dk; cbn [eval]; solve [lk]).
  all: try (dk; cbn [run_ty]; solve [lk]).
  - dk. apply (l_inst sc (run_inst rt i)); assumption.
  - intros x e IH D. apply (l_cached ("_m_" ++ x) (v <~ eval rt e VNone;; _ <~ put ("_m_" ++ x) v;; kret v)). dk. lk.
  - intros x c IHc p IHp en t IHt D. apply (l_cached ("_m_" ++ x) (c <~ eval rt c VNone;; c <~ need_bool c;;
           if (c : bool) then
             back <~ io io_pos;; p <~ eval rt p VNone;; p <~ need_int p;; _ <~ io (io_seek rt p);;
             v <~ run_ty rt "" en t;; v <~ present v;; _ <~ io (io_seek rt back);; _ <~ put ("_m_" ++ x) v;; kret v
           else kret VNone)). dk. lk. apply IHt.
  - intros t IH z D loc en. cbn [run_ty]. apply l_bind; [now apply IH|]. intros. lk.
  - intros t IH _ loc en. apply l_same. intros fs s v f s' H. change ((r <- run_typ rt t [];; ret (Some (fst r), fs)) s = (Ok (v, f), s')) in H.
    apply bind_inv in H as [a [s0 [_ H]]]. unfold ret in H. congruence.
  - intros t IH D loc en. change (level (v <~ run_typ rt t;; kret (Some v))). apply l_bind; [|intros; lk]. intros fs s v f s' _. apply (IH D).
  - intros e IHe t IHt D loc en. change (level (n <~ eval rt e VNone;; n <~ need_int n;; fun fs => substream rt n (run_ty rt loc en t fs))). dk. lk.
    intros fs s v f s' N X. unfold substream in X. destruct (read_bytes rt a0 s) as [[x|e'] s1]; [|discriminate]. specialize (IHt loc en fs (stream_of x)).
    destruct (run_ty rt loc en t fs (stream_of x)) as [[[w g]|e'] s2]; cbn [fst] in X; [|discriminate]. assert (g = f) as -> by congruence. eapply IHt; [exact N|reflexivity].
  - intros e IHe cs IHc D loc en. change (level (v <~ eval rt e VNone;; run_cases rt loc en v cs)). dk. apply l_bind; [lk|]. intros. apply IHc.
  - intros t IH D loc en v. exact (IH D loc en).
  - intros k _ t IHt cs IHc D loc en v fs s w f s' N H. dk. cbn [run_cases] in H. match type of H with (if ?c then _ else _) _ _ = _ => destruct c end; [eapply IHt; [exact N|exact H]|eapply IHc; [exact N|exact H]].
  - intros _ one H. cbn [run_rep]. apply l_bind; [apply l_turns; intros; apply l_eof; lk|]. intros. lk.
  - intros e IH D one H. change (level (n <~ eval rt e VNone;; n <~ need_int n;; l <~ times (v <~ one;; present v) (Z.to_nat n);; kret (Some (VList l)))). dk.
    apply l_bind; [lk|]. intros. apply l_bind; [lk|]. intros. apply l_bind; [apply l_times; lk|]. intros. lk.
  - intros e IH D one H. change (level (l <~ turns (until (v <~ one;; present v) (fun v => w <~ eval rt e v;; need_bool w));; kret (Some (VList l)))). dk.
    apply l_bind; [apply l_turns; intros; apply l_until; intros; lk|]. intros. lk.
  - intros x c IHc r IHr en t IHt q IHq D path i after.
    change (level (_ <~ (if after && negb (is_bits t) then io align_to_byte else kret tt);; c <~ eval rt c VNone;; c <~ need_bool c;;
      _ <~ (if (c : bool) then v <~ run_rep rt (run_ty rt (attr_path path i) en t) r;; match v with Some v => put x v | None => kret tt end else kret tt);;
      run_attrs rt path (S i) (is_bits t) q)). dk.
    apply l_bind; [lk|]. intros _. apply l_bind; [lk|]. intros v. apply l_bind; [lk|]. intros d. apply l_bind; [|intros _; apply IHq].
    destruct d; [|lk]. apply l_bind; [apply IHr, IHt|]. intros o. lk.
  - intros path q IH D fs s v f s' H. change ((r0 <- run_attrs rt path 0 false q ([] :: fs);; ret (VObj (class_name path) (hd [] (snd r0)), tl (snd r0))) s = (Ok (v, f), s')) in H.
    apply bind_inv in H as [[u g] [s0 [H1 H2]]]. apply (IH D) in H1; [|discriminate]. unfold ret in H2. cbn [snd hd tl] in H2. assert (f = tl g) as -> by congruence. destruct g; [discriminate|]. cbn [List.length tl] in *. congruence.
Qed.
Lemma lt t : deep_typ t = true -> forall fs s v f s', run_typ rt t fs s = (Ok (v, f), s') -> List.length f = List.length fs.
Proof. apply all_level. Qed.
End Induction.
