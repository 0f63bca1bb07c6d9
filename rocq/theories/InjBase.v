(** Objects under construction only grow.  (Support for C59.) *)
From Verif Require Import PyBase Runtime Codec Spec RuntimeProofs Ksy KsySchema KsyTyped.
From Coq Require Import ZifyBool Lia.
Open Scope string_scope.
Open Scope list_scope.
Open Scope Z_scope.

Definition prefix {A} (a a' : list A) : Prop := exists m, a' = a ++ m.
Definition ext (fs fs' : frames) : Prop := exists front more, fs' = front ++ more /\ Forall2 prefix fs front.
Lemma prefix_refl {A} (a : list A) : prefix a a. Proof. exists []. now rewrite app_nil_r. Qed.
Lemma prefix_trans {A} (a b c : list A) : prefix a b -> prefix b c -> prefix a c.
Proof. intros [m ->] [n ->]. exists (m ++ n). now rewrite app_assoc. Qed.
Lemma f2_refl (fs : frames) : Forall2 prefix fs fs.
Proof. induction fs; constructor; [apply prefix_refl|assumption]. Qed.
Lemma f2_trans (a b c : frames) : Forall2 prefix a b -> Forall2 prefix b c -> Forall2 prefix a c.
Proof.
  intros H. revert c. induction H as [|x y a b Hx _ IH]; intros c Hc; inversion Hc; subst; [constructor|].
  constructor; [eapply prefix_trans; eassumption|auto].
Qed.
Lemma ext_refl fs : ext fs fs. Proof. exists fs, []. split; [now rewrite app_nil_r|apply f2_refl]. Qed.
Lemma ext_trans a b c : ext a b -> ext b c -> ext a c.
Proof.
  intros [p [m [-> H1]]] [q [n [-> H2]]]. apply Forall2_app_inv_l in H2 as [q1 [q2 [H3 [_ ->]]]].
  exists q1, (q2 ++ n). split; [now rewrite app_assoc|]. eapply f2_trans; eassumption.
Qed.
Lemma ext_cons a fs fs' : ext (a :: fs) fs' -> exists a' fs1, fs' = a' :: fs1 /\ prefix a a' /\ ext fs fs1.
Proof.
  intros [p [m [-> H]]]. inversion H; subst. eexists _, _. split; [reflexivity|]. split; [assumption|]. eexists _, _. split; [reflexivity|assumption].
Qed.
Lemma cons_ext a a' fs fs' : prefix a a' -> ext fs fs' -> ext (a :: fs) (a' :: fs').
Proof. intros H [p [m [-> Hp]]]. exists (a' :: p), m. split; [reflexivity|]. now constructor. Qed.
Lemma app_ext p fs fs' : ext fs fs' -> ext (p ++ fs) (p ++ fs').
Proof. intros H. induction p as [|a p IH]; [exact H|]. apply cons_ext; [apply prefix_refl|exact IH]. Qed.
Lemma ext_outer sc fs fs' : ext (outer sc fs) fs' -> ext fs (inner sc fs ++ fs').
Proof.
  intros H. destruct sc; cbn [outer inner].
  - exact H.
  - destruct fs as [|a fs]; [exists [], fs'; split; [reflexivity|constructor]|]. cbn [tl firstn app] in *. now apply cons_ext; [apply prefix_refl|].
  - destruct fs as [|a fs]; [exists [], fs'; split; [reflexivity|constructor]|].
    rewrite (app_removelast_last [] (l := a :: fs)) at 1 by discriminate. now apply app_ext.
Qed.
Lemma ext_put x v fs : ext fs ((hd [] fs ++ [(x, v)]) :: tl fs).
Proof.
  destruct fs as [|a fs]; [exists [], [[(x, v)]]; split; [reflexivity|constructor]|]. cbn [hd tl]. apply cons_ext; [now exists [(x, v)]|apply ext_refl].
Qed.

Definition grows {A} (m : K A) : Prop := forall fs s v fs' s', m fs s = (Ok (v, fs'), s') -> ext fs fs'.
Lemma kbind_inv {A B} (m : K A) (k : A -> K B) fs s v f s' : kbind m k fs s = (Ok (v, f), s') ->
  exists a f0 s0, m fs s = (Ok (a, f0), s0) /\ k a f0 s0 = (Ok (v, f), s').
Proof. unfold kbind, bind. destruct (m fs s) as [[[a f0]|e] s0]; [|discriminate]. cbn [fst snd]. eauto 6. Qed.
Lemma bind_inv {A B} (m : M A) (k : A -> M B) s v s' : bind m k s = (Ok v, s') -> exists a s0, m s = (Ok a, s0) /\ k a s0 = (Ok v, s').
Proof. unfold bind. destruct (m s) as [[a|e] s0]; [|discriminate]. eauto. Qed.
Lemma io_inv {A} (m : M A) fs s v f s' : io m fs s = (Ok (v, f), s') -> m s = (Ok v, s') /\ f = fs.
Proof. unfold io, bind. destruct (m s) as [[a|e] s0]; [|discriminate]. unfold ret. intros H. split; [|congruence]. assert (a = v) as -> by congruence. congruence. Qed.
Lemma kret_inv {A} (a : A) fs s v f s' : kret a fs s = (Ok (v, f), s') -> v = a /\ f = fs /\ s' = s.
Proof. unfold kret, ret. intros H. repeat split; congruence. Qed.

Lemma w_ret {A} (a : A) : grows (kret a).
Proof. intros fs s v f s' H. apply kret_inv in H as [_ [-> _]]. apply ext_refl. Qed.
Lemma w_bind {A B} (m : K A) (k : A -> K B) : grows m -> (forall a, grows (k a)) -> grows (kbind m k).
Proof. intros Hm Hk fs s v f s' H. apply kbind_inv in H as [a [f0 [s0 [H1 H2]]]]. eapply ext_trans; [eapply Hm; eassumption|eapply Hk; eassumption]. Qed.
Lemma w_io {A} (m : M A) : grows (io m).
Proof. intros fs s v f s' H. apply io_inv in H as [_ ->]. apply ext_refl. Qed.
Lemma w_same {A} (m : K A) : (forall fs s v f s', m fs s = (Ok (v, f), s') -> f = fs) -> grows m.
Proof. intros H fs s v f s' E. apply H in E. subst. apply ext_refl. Qed.
Lemma need_int_inv v fs s n f s' : need_int v fs s = (Ok (n, f), s') -> v = VInt n /\ f = fs /\ s' = s.
Proof. unfold need_int, ret, fail. destruct v; intros H; try discriminate. repeat split; congruence. Qed.
Lemma need_bool_inv v fs s n f s' : need_bool v fs s = (Ok (n, f), s') -> v = VBool n /\ f = fs /\ s' = s.
Proof. unfold need_bool, ret, fail. destruct v; intros H; try discriminate. repeat split; congruence. Qed.
Lemma need_str_inv v fs s n f s' : need_str v fs s = (Ok (n, f), s') -> v = VStr n /\ f = fs /\ s' = s.
Proof. unfold need_str, ret, fail. destruct v; intros H; try discriminate. repeat split; congruence. Qed.
Lemma present_inv v fs s n f s' : present v fs s = (Ok (n, f), s') -> v = Some n /\ f = fs /\ s' = s.
Proof. unfold present, ret, fail. destruct v; intros H; try discriminate. repeat split; congruence. Qed.
Lemma w_int v : grows (need_int v). Proof. apply w_same. intros. now apply need_int_inv in H. Qed.
Lemma w_bool v : grows (need_bool v). Proof. apply w_same. intros. now apply need_bool_inv in H. Qed.
Lemma w_str v : grows (need_str v). Proof. apply w_same. intros. now apply need_str_inv in H. Qed.
Lemma w_present v : grows (present v). Proof. apply w_same. intros. now apply present_inv in H. Qed.
Lemma w_put x v : grows (put x v).
Proof. intros fs s u f s' H. unfold put, ret in H. assert (f = (hd [] fs ++ [(x, v)]) :: tl fs) as -> by congruence. apply ext_put. Qed.
Lemma w_get sc x : grows (get sc x).
Proof. apply w_same. intros fs s v f s' H. unfold get in H. destruct (lookup x _); unfold ret, fail in H; congruence. Qed.
Lemma w_dot x o : grows (fun fs => match getattr x o with Some v => ret (v, fs) | None => fail (AttributeError x) end).
Proof. apply w_same. intros fs s v f s' H. destruct (getattr x o); unfold ret, fail in H; congruence. Qed.
Lemma w_decode c a : grows (fun fs => match a with VBytes x => s <- lift (py_decode c x);; ret (VStr s, fs) | _ => fail TypeError end).
Proof. apply w_same. intros fs s v f s' H. destruct a; try discriminate. apply bind_inv in H as [z [s0 [_ H]]]. unfold ret in H. congruence. Qed.
Lemma w_inst sc (m : K pyval) : grows m -> grows (fun fs => r <- m (outer sc fs);; ret (fst r, inner sc fs ++ snd r)).
Proof.
  intros H fs s v f s' E. apply bind_inv in E as [[a f0] [s0 [E1 E2]]]. unfold ret in E2. cbn [fst snd] in E2. assert (f = inner sc fs ++ f0) as -> by congruence.
  apply ext_outer. eapply H; eassumption.
Qed.
Lemma w_cached x (m : K pyval) : grows m -> grows (fun fs => match lookup x (hd [] fs) with Some v => ret (v, fs) | None => m fs end).
Proof. intros H fs s v f s' E. destruct (lookup x (hd [] fs)); [unfold ret in E; assert (f = fs) as -> by congruence; apply ext_refl|eapply H; eassumption]. Qed.
Lemma w_fail {A} e : grows (fun _ : frames => @fail (A * frames) e). Proof. intros fs s v f s' H. discriminate. Qed.

Ltac wk := repeat first
  [ assumption
  | match goal with H : forall _, grows _ |- grows _ => apply H end
  | apply w_int | apply w_bool | apply w_str | apply w_present | apply w_put | apply w_get | apply w_io | apply w_dot | apply w_decode
  | apply w_ret | apply w_fail
  | apply w_bind; [|intros ?]
  | match goal with |- grows (if ?c then _ else _) => destruct c end
  | match goal with |- grows (match ?o with Some _ => _ | None => _ end) => destruct o end ].

Section Induction.
Context (rt : runtime).
Lemma w_eof body n : grows body -> grows (until_eof rt body n).
Proof. intros H. induction n as [|n IH]; cbn [until_eof]; wk. Qed.
Lemma w_until body stop n : grows body -> (forall v, grows (stop v)) -> grows (until body stop n).
Proof. intros H Hs. induction n as [|n IH]; cbn [until]; wk. Qed.
Lemma w_times body n : grows body -> grows (times body n).
Proof. intros H. induction n as [|n IH]; cbn [times]; wk. Qed.
Lemma w_turns {A} (loop : nat -> K A) : (forall n, grows (loop n)) -> grows (turns loop).
Proof. intros H fs s v f s' E. eapply H; exact E. Qed.

Definition We e := forall item, grows (eval rt e item).
Definition Wi i := grows (run_inst rt i).
Definition Wty t := forall loc en, grows (run_ty rt loc en t).
Definition Wcs cs := forall loc en v, grows (run_cases rt loc en v cs).
Definition Wk (_ : key) := True.
Definition Wr r := forall one, grows one -> grows (run_rep rt one r).
Definition Wq q := forall path i after, grows (run_attrs rt path i after q).
Definition Wt t := grows (run_typ rt t).
Lemma all_grow : (forall e, We e) /\ (forall i, Wi i) /\ (forall t, Wty t) /\ (forall cs, Wcs cs) /\ (forall k, Wk k) /\ (forall r, Wr r) /\ (forall q, Wq q) /\ (forall t, Wt t).
Proof.
  apply (ksy_mind We Wi Wty Wcs Wk Wr Wq Wt); unfold We, Wi, Wty, Wcs, Wk, Wr, Wq, Wt; try (intros; exact I).
  - intros item. apply w_ret.
  - intros z item. apply w_ret.
  - intros s item. apply w_ret.
  - intros sc x item. apply w_get.
  - intros e IH x item. cbn [eval]. wk.
  - intros item. apply w_ret.
  - intros item. cbn [eval]. wk.
  - intros item. cbn [eval]. wk.
  - intros item. cbn [eval]. wk.
  - intros e IH E m item. cbn [eval]. wk.
  - intros e IH s item. cbn [eval]. wk.
  - intros e IH item. cbn [eval]. wk.
  - intros a IHa b IHb item. cbn [eval]. wk.
  - intros a IHa b IHb item. cbn [eval]. wk.
  - intros o a IHa b IHb item. cbn [eval]. wk.
  - intros c IHc a IHa b IHb item. cbn [eval]. wk.
  - intros e IH item. cbn [eval]. wk.
  - intros e IH item. cbn [eval]. wk.
  - intros a IHa b IHb item. cbn [eval]. wk.
  - intros e IH c item. cbn [eval]. wk.
  - intros sc i IH item. apply (w_inst sc (run_inst rt i) IH).
  - intros x e IH. apply (w_cached ("_m_" ++ x) (v <~ eval rt e VNone;; _ <~ put ("_m_" ++ x) v;; kret v)). wk.
  - intros x c IHc p IHp en t IHt. apply (w_cached ("_m_" ++ x) (c <~ eval rt c VNone;; c <~ need_bool c;;
           if (c : bool) then
             back <~ io io_pos;; p <~ eval rt p VNone;; p <~ need_int p;; _ <~ io (io_seek rt p);;
             v <~ run_ty rt "" en t;; v <~ present v;; _ <~ io (io_seek rt back);; _ <~ put ("_m_" ++ x) v;; kret v
           else kret VNone)). wk. apply IHt.
  - intros n loc en. cbn [run_ty]. wk.
  - intros loc en. cbn [run_ty]. wk.
  - intros f loc en. cbn [run_ty]. wk.
  - intros e IH loc en. cbn [run_ty]. wk.
  - intros loc en. cbn [run_ty]. wk.
  - intros c e IH loc en. cbn [run_ty]. wk.
  - intros c loc en. cbn [run_ty]. wk.
  - intros x loc en. cbn [run_ty]. wk.
  - intros t IH z loc en. cbn [run_ty]. apply w_bind; [apply IH|]. intros. wk.
  - intros t IH loc en. apply w_same. intros fs s v f s' H. change ((r <- run_typ rt t [];; ret (Some (fst r), fs)) s = (Ok (v, f), s')) in H.
    apply bind_inv in H as [a [s0 [_ H]]]. unfold ret in H. congruence.
  - intros t IH loc en. change (grows (v <~ run_typ rt t;; kret (Some v))). wk.
  - intros e IHe t IHt loc en. change (grows (n <~ eval rt e VNone;; n <~ need_int n;; fun fs => substream rt n (run_ty rt loc en t fs))). wk.
    intros fs s v f s' H. unfold substream in H. destruct (read_bytes rt a0 s) as [[x|e'] s1]; [|discriminate]. specialize (IHt loc en fs (stream_of x)).
    destruct (run_ty rt loc en t fs (stream_of x)) as [[[w g]|e'] s2]; cbn [fst] in H; [|discriminate]. assert (g = f) as -> by congruence. eapply IHt. reflexivity.
  - intros e IHe cs IHc loc en. change (grows (v <~ eval rt e VNone;; run_cases rt loc en v cs)). apply w_bind; [wk|]. intros. apply IHc.
  - intros loc en v. cbn [run_cases]. wk.
  - intros t IH loc en v. exact (IH loc en).
  - intros k _ t IHt cs IHc loc en v fs s w f s' H. cbn [run_cases] in H. match type of H with (if ?c then _ else _) _ _ = _ => destruct c end; [eapply IHt; exact H|eapply IHc; exact H].
  - intros one H. exact H.
  - intros one H. cbn [run_rep]. apply w_bind; [apply w_turns; intros; apply w_eof; wk|]. intros. wk.
  - intros e IH one H. change (grows (n <~ eval rt e VNone;; n <~ need_int n;; l <~ times (v <~ one;; present v) (Z.to_nat n);; kret (Some (VList l)))).
    apply w_bind; [wk|]. intros. apply w_bind; [wk|]. intros. apply w_bind; [apply w_times; wk|]. intros. wk.
  - intros e IH one H. change (grows (l <~ turns (until (v <~ one;; present v) (fun v => w <~ eval rt e v;; need_bool w));; kret (Some (VList l)))).
    apply w_bind; [apply w_turns; intros; apply w_until; intros; wk|]. intros. wk.
  - intros path i after. apply w_ret.
  - intros x c IHc r IHr en t IHt q IHq path i after.
    change (grows (_ <~ (if after && negb (is_bits t) then io align_to_byte else kret tt);; c <~ eval rt c VNone;; c <~ need_bool c;;
      _ <~ (if (c : bool) then v <~ run_rep rt (run_ty rt (attr_path path i) en t) r;; match v with Some v => put x v | None => kret tt end else kret tt);;
      run_attrs rt path (S i) (is_bits t) q)).
    apply w_bind; [wk|]. intros _. apply w_bind; [wk|]. intros v. apply w_bind; [wk|]. intros d. apply w_bind; [|intros _; apply IHq].
    destruct d; [|wk]. apply w_bind; [apply IHr, IHt|]. intros o. wk.
  - intros path q IH fs s v f s' H. change ((r0 <- run_attrs rt path 0 false q ([] :: fs);; ret (VObj (class_name path) (hd [] (snd r0)), tl (snd r0))) s = (Ok (v, f), s')) in H.
    apply bind_inv in H as [[u g] [s0 [H1 H2]]]. apply IH in H1. apply ext_cons in H1 as [a' [g' [-> [_ H1]]]]. unfold ret in H2. cbn [snd hd tl] in H2. assert (f = g') as -> by congruence. exact H1.
Qed.
Lemma we e item : grows (eval rt e item). Proof. apply all_grow. Qed.
Lemma wi i : grows (run_inst rt i). Proof. apply all_grow. Qed.
Lemma wty t loc en : grows (run_ty rt loc en t). Proof. apply all_grow. Qed.
Lemma wcs cs loc en v : grows (run_cases rt loc en v cs). Proof. apply all_grow. Qed.
Lemma wr r one : grows one -> grows (run_rep rt one r). Proof. apply all_grow. Qed.
Lemma wq q path i after : grows (run_attrs rt path i after q). Proof. apply all_grow. Qed.
Lemma wt t : grows (run_typ rt t). Proof. apply all_grow. Qed.
End Induction.
