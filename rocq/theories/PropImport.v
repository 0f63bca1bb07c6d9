(** * C62: the modules can be imported in any order, and none with a runtime that is too old.

    For every program that imports modules of the repository, in any order and any number of times, and every version of the
    kaitaistruct runtime: with a supported runtime every import succeeds, every module is executed exactly once, and afterwards every
    name that its functions will look up is there; with an older one exactly the modules that do not depend on the runtime's API can be
    imported, and nothing half-initialised is left behind. *)
From Coq Require Import ZArith List String Bool Lia.
From Verif Require Import ImportModel ImportProofs.
Import ListNotations.
Open Scope string_scope.
Open Scope list_scope.
Open Scope nat_scope.

(** API version 0.9 or later; runtimes without [API_VERSION] count as 0.9. *)
Definition supported (api : option (list Z)) : Prop :=
  match api with
  | None => True
  | Some (x :: r) => (0 < x)%Z \/ x = 0%Z /\ match r with y :: _ => (9 <= y)%Z | [] => False end
  | Some [] => False
  end.
Definition module_names : list string := map f_name files.
(** [m] was executed to its end: every name it binds at top level, every global name its functions use, and every attribute of another
    module they use, is there. *)
Definition ready (w : world) (m : string) : Prop := exists f l, In f files /\ f_name f = m /\ loaded w m = Some l /\
  (forall s x, In s (f_body f) -> In x (map fst (binds s)) -> bound x l <> None) /\
  (forall x, In x (f_late f) -> bound x l <> None) /\
  (forall a c, In (a, c) (f_late_attrs f) -> exists n l', bound a l = Some (Module n) /\ loaded w n = Some l' /\ bound c l' <> None).
Definition run (api : option (list Z)) (n : nat) (program : list string) : list outcome * world := imports api files n program nothing.

(** ** The repository *)
Fixpoint depth (n : nat) (m : string) : nat :=
  match n, find_file files m with S n, Some f => S (fold_right (fun d r => Nat.max (depth n d) r) 0 (flat_map stmt_imports (f_body f))) | _, _ => 0 end.
Definition level (m : string) : nat := Nat.pred (depth 6 m).
Lemma files_ok : forallb (file_ok files level) files = true. Proof. vm_compute. reflexivity. Qed.
Lemma names_found : forallb (fun f => match find_file files (f_name f) with Some _ => Nat.ltb (level (f_name f)) 5 | None => false end) files = true. Proof. vm_compute. reflexivity. Qed.
Lemma found m : In m module_names -> (exists f, find_file files m = Some f) /\ level m < 5.
Proof.
  intros H. apply in_map_iff in H as [f [<- Hf]]. pose proof (proj1 (forallb_forall _ _) names_found f Hf) as E. cbv beta in E. destruct (find_file files (f_name f)) as [g|]; [|discriminate]. apply Nat.ltb_lt in E. eauto.
Qed.
(** what the functions of a module use *)
Definition late_ok (f : file) : bool :=
  forallb (has (final f)) (f_late f) &&
  forallb (fun p => match bound (fst p) (final f) with Some (Module n) => existsb (String.eqb n) (flat_map stmt_imports (f_body f)) && match find_file files n with Some g => has (final g) (snd p) | None => false end | _ => false end) (f_late_attrs f).
Lemma all_late_ok : forallb late_ok files = true. Proof. vm_compute. reflexivity. Qed.

Lemma bound_app x a b : bound x (a ++ b) = match bound x a with Some t => Some t | None => bound x b end.
Proof. induction a as [|[y t] a IH]; [reflexivity|]. cbn [app bound]. destruct (String.eqb x y); [reflexivity|exact IH]. Qed.
Lemma bound_in x a : In x (map fst a) -> bound x a <> None.
Proof. induction a as [|[y t] a IH]; [contradiction|]. cbn [map fst In bound]. destruct (String.eqb_spec x y) as [->|N]; [discriminate|]. intros [E|H]; [congruence|now apply IH]. Qed.
Lemma names_after_bound l : forall acc x, bound x acc <> None \/ (exists s, In s l /\ In x (map fst (binds s))) -> bound x (names_after acc l) <> None.
Proof.
  induction l as [|s l IH]; intros acc x H; cbn [names_after].
  - destruct H as [H|[s [[] _]]]. exact H.
  - apply IH. destruct H as [H|[t [[->|Ht] Hx]]].
    + left. rewrite bound_app. destruct (bound x (binds s)); [discriminate|exact H].
    + left. rewrite bound_app. pose proof (bound_in x _ Hx). destruct (bound x (binds t)); [discriminate|contradiction].
    + right. eauto.
Qed.
Lemma good_ready api w m : good api files w m -> ready w m.
Proof.
  intros G. destruct (G m (needs_self files m)) as [f [F [L _]]]. pose proof (find_some _ _ F) as [Hf E]. apply String.eqb_eq in E. pose proof (proj1 (forallb_forall _ _) all_late_ok f Hf) as K. unfold late_ok in K. apply andb_true_iff in K as [K1 K2].
  exists f, (final f). split; [exact Hf|]. split; [exact E|]. split; [exact L|]. split; [|split].
  - intros s x Hs Hx. apply names_after_bound. right. eauto.
  - intros x Hx. rewrite forallb_forall in K1. specialize (K1 x Hx). unfold has in K1. destruct (bound x (final f)); discriminate.
  - intros a c H. rewrite forallb_forall in K2. specialize (K2 (a, c) H). cbn [fst snd] in K2. destruct (bound a (final f)) as [[n|]|] eqn:B; try discriminate. apply andb_true_iff in K2 as [K3 K4].
    apply existsb_exists in K3 as [d [Hd Ed]]. apply String.eqb_eq in Ed. subst d. destruct (G n) as [g [Fg [Lg _]]]; [eapply needs_import; [exact F|exact Hd|constructor]|].
    rewrite Fg in K4. exists n, (final g). split; [reflexivity|]. split; [exact Lg|]. unfold has in K4. destruct (bound c (final g)); discriminate.
Qed.

Section Program.
Context (api : option (list Z)) (n : nat).
Hypothesis Hn : 5 <= n.
Definition fine (w : world) : Prop := forall x, loaded w x <> None -> good api files w x.
Lemma program_runs : forall l w, (forall m, In m l -> In m module_names) -> fine w ->
  let (os, w') := imports api files n l w in
  extends w w' /\ fine w' /\ (forall x, loaded w x = None -> loaded w' x <> None -> exists m, In m l /\ needs files m x) /\
  Forall2 (fun m o => o = Done /\ good api files w' m \/ o = Raised Incompatible /\ bad api files m) l os /\
  ((forall m, ~ bad api files m) -> once w w').
Proof.
  induction l as [|m l IH]; intros w Hl Hw; cbn [imports].
  - split; [intros x v L; exact L|]. split; [exact Hw|]. split; [intros x A B; contradiction|]. split; [constructor|]. intros _. exists []. split; [reflexivity|]. split; [constructor|]. intros x. split; [contradiction|]. intros [A B]. contradiction.
  - destruct (found m (Hl m (or_introl eq_refl))) as [[f F] Lv].
    pose proof (import_works api files level files_ok n m f w F ltac:(lia) (fun x _ => Hw x)) as [X1 [X2 X3]]. destruct (import api files n m w) as [o w1]. cbn [fst snd] in X1, X2, X3.
    assert (Hw1 : fine w1). { intros x Lx. destruct (loaded w x) as [v|] eqn:E; [|now apply X2]. apply (good_extends api files w w1 x X1). apply Hw. congruence. }
    pose proof (IH w1 (fun y Hy => Hl y (or_intror Hy)) Hw1) as R. destruct (imports api files n l w1) as [os w2]. destruct R as [Y1 [Y2 [Y3 [Y4 Y5]]]].
    split; [intros x v L; apply Y1; now apply X1|]. split; [exact Y2|]. split; [|split].
    + intros x A B. destruct (loaded w1 x) eqn:E; [|destruct (Y3 x E B) as [y [Hy Ny]]; exists y; split; [now right|exact Ny]]. destruct (X2 x A ltac:(congruence)) as [_ Nd]. exists m. split; [now left|exact Nd].
    + constructor; [|exact Y4]. destruct o; [left|right; destruct X3 as [-> X3]; now split]. split; [reflexivity|]. apply (good_extends api files w1 w2 m Y1). apply X3.
    + intros NB. destruct o as [|e]; [|exfalso; apply (NB m); apply X3]. destruct X3 as [_ O1]. specialize (Y5 NB).
      eapply (once_trans w w1 w2); [exact O1|exact Y5| |]; intros x N.
      * destruct (loaded w1 x) as [v|] eqn:E; [|contradiction]. rewrite (Y1 x v E). discriminate.
      * destruct (loaded w x) as [v|] eqn:E; [|contradiction]. rewrite (X1 x v E). discriminate.
Qed.
End Program.
Lemma supported_old api : supported api <-> old api = false.
Proof.
  unfold supported, old. destruct api as [[|x r]|]; cbn [tuple_lt]; [split; [contradiction|discriminate]| |split; reflexivity || auto].
  destruct (Z.eqb_spec x 0) as [->|N].
  - destruct r as [|y r]; cbn [tuple_lt]; [split; [lia|discriminate]|]. destruct (Z.eqb_spec y 9) as [->|N]; [split; [destruct r; reflexivity|intros _; right; lia]|]. destruct (Z.ltb_spec y 9); split; try discriminate; try lia; auto.
  - destruct (Z.ltb_spec x 0); split; try discriminate; try lia; auto.
Qed.
Lemma fine_nothing api : fine api nothing. Proof. intros x H. contradiction. Qed.

(** ** The theorems *)
(** With a supported runtime *)
Theorem C62_every_order_works : forall api n program, supported api -> 5 <= n -> (forall m, In m program -> In m module_names) ->
  let (outcomes, w) := run api n program in
  (forall o, In o outcomes -> o = Done) /\ List.length outcomes = List.length program /\
  NoDup (ran w) /\ (forall x, In x (ran w) <-> exists m, In m program /\ needs files m x) /\
  (forall m x, In m program -> needs files m x -> ready w x).
Proof.
  intros api n program Hs Hn Hp. unfold run. pose proof (program_runs api n Hn program nothing Hp (fine_nothing api)) as R. destruct (imports api files n program nothing) as [os w]. destruct R as [X1 [X2 [X3 [X4 X5]]]].
  assert (NB : forall m, ~ bad api files m). { intros m [O _]. apply supported_old in Hs. congruence. }
  assert (G : forall m, In m program -> good api files w m). { intros m Hm. clear - X4 Hm NB. induction X4 as [|y o l os Ho _ IH]; [contradiction|]. destruct Hm as [->|Hm]; [|now apply IH]. destruct Ho as [[_ G]|[_ B]]; [exact G|contradiction (NB m B)]. }
  destruct (X5 NB) as [new [E [D I]]]. cbn [ran nothing] in E. rewrite app_nil_r in E. subst new.
  split; [|split; [|split; [exact D|split]]].
  - intros o Ho. clear - X4 Ho NB. induction X4 as [|y o' l os Ho' _ IH]; [contradiction|]. destruct Ho as [->|Ho]; [|now apply IH]. destruct Ho' as [[E _]|[_ B]]; [exact E|contradiction (NB y B)].
  - clear - X4. induction X4; cbn [List.length]; congruence.
  - intros x. rewrite I. split; [intros [A B]; now apply X3|]. intros [m [Hm Nx]]. split; [reflexivity|]. destruct (G m Hm x Nx) as [f [_ [L _]]]. congruence.
  - intros m x Hm Nx. apply (good_ready api). exact (good_needs api files w m x (G m Hm) Nx).
Qed.
(** ... and what is in [sys.modules] afterwards depends only on which modules were asked for. *)
Theorem C62_order_does_not_matter : forall api n program n' program', supported api -> 5 <= n -> 5 <= n' ->
  (forall m, In m program -> In m module_names) -> (forall m, In m program <-> In m program') ->
  forall x, loaded (snd (run api n program)) x = loaded (snd (run api n' program')) x.
Proof.
  intros api n program n' program' Hs Hn Hn' Hp Hq x. unfold run.
  pose proof (program_runs api n Hn program nothing Hp (fine_nothing api)) as R. pose proof (program_runs api n' Hn' program' nothing (fun m H => Hp m (proj2 (Hq m) H)) (fine_nothing api)) as R'.
  destruct (imports api files n program nothing) as [os w]. destruct (imports api files n' program' nothing) as [os' w']. cbn [snd]. destruct R as [_ [X2 [X3 [X4 _]]]], R' as [_ [Y2 [Y3 [Y4 _]]]].
  assert (NB : forall m, ~ bad api files m). { intros m [O _]. apply supported_old in Hs. congruence. }
  assert (Gen : forall l os w, Forall2 (fun m o => o = Done /\ good api files w m \/ o = Raised Incompatible /\ bad api files m) l os -> forall m, In m l -> good api files w m).
  { clear - NB. intros l os w F. induction F as [|y o l os Ho _ IH]; intros m Hm; [contradiction|]. destruct Hm as [->|Hm]; [|now apply IH]. destruct Ho as [[_ G]|[_ B]]; [exact G|contradiction (NB m B)]. }
  assert (Same : forall l w l' os' w', (forall m, In m l -> In m l') -> fine api w -> (forall x, loaded nothing x = None -> loaded w x <> None -> exists m, In m l /\ needs files m x) ->
    Forall2 (fun m o => o = Done /\ good api files w' m \/ o = Raised Incompatible /\ bad api files m) l' os' -> loaded w x <> None -> loaded w x = loaded w' x).
  { clear - Gen. intros l w l' os' w' Hl Hf H3 H4 L. destruct (H3 x eq_refl L) as [m [Hm Nx]]. destruct (Gen _ _ _ H4 m (Hl m Hm) x Nx) as [f [F [L' _]]]. destruct (Hf x L x (needs_self files x)) as [g [F' [L2 _]]]. congruence. }
  destruct (loaded w x) eqn:E.
  - rewrite <- E. apply (Same program w program' os' w'); [intros m; apply Hq|assumption|assumption|assumption|congruence].
  - destruct (loaded w' x) eqn:E'; [|reflexivity]. rewrite <- E, <- E'. symmetry. apply (Same program' w' program os w); [intros m; apply Hq|assumption|assumption|assumption|congruence].
Qed.
(** With an older runtime: a module that checks the version, or imports one that does, raises the exception that says so, on every
    attempt; all others can be imported; and [sys.modules] holds no module that was not executed to its end. *)
Theorem C62_old_runtime_is_refused : forall api n program, ~ supported api -> 5 <= n -> (forall m, In m program -> In m module_names) ->
  let (outcomes, w) := run api n program in
  Forall2 (fun m o => ((exists x f, needs files m x /\ find_file files x = Some f /\ In Check (f_body f)) -> o = Raised Incompatible) /\
                      (~ (exists x f, needs files m x /\ find_file files x = Some f /\ In Check (f_body f)) -> o = Done /\ ready w m)) program outcomes /\
  (forall x, loaded w x <> None -> ready w x /\ ~ (exists y f, needs files x y /\ find_file files y = Some f /\ In Check (f_body f))).
Proof.
  intros api n program Hs Hn Hp. unfold run. pose proof (program_runs api n Hn program nothing Hp (fine_nothing api)) as R. destruct (imports api files n program nothing) as [os w]. destruct R as [_ [X2 [_ [X4 _]]]].
  assert (O : old api = true). { destruct (old api) eqn:E; [reflexivity|]. apply supported_old in E. contradiction. }
  split.
  - clear X2. induction X4 as [|m o l os Ho _ IH]; constructor; [|apply IH; intros y Hy; apply Hp; now right]. destruct Ho as [[-> G]|[-> [_ B]]].
    + split; [|intros _; split; [reflexivity|exact (good_ready api w m G)]]. intros B. exfalso. exact (good_not_bad api files w m G (conj O B)).
    + split; [reflexivity|]. intros N. contradiction (N B).
  - intros x L. specialize (X2 x L). split; [exact (good_ready api w x X2)|]. intros B. exact (good_not_bad api files w x X2 (conj O B)).
Qed.
(** Those others are three. *)
Theorem C62_modules_without_the_runtime : forall m, In m module_names ->
  (exists x f, needs files m x /\ find_file files x = Some f /\ In Check (f_body f)) <-> ~ In m ["okdmr.kaitai.motorola.motorola_utils"; "okdmr.kaitai.tools.byteswap"; "okdmr.kaitai.tools.prettyprint"].
Proof.
  intros m Hm. split.
  - intros [x [f [N [F C]]]] Hi. assert (X : forall y, In y ["okdmr.kaitai.motorola.motorola_utils"; "okdmr.kaitai.tools.byteswap"; "okdmr.kaitai.tools.prettyprint"] -> exists g, find_file files y = Some g /\ flat_map stmt_imports (f_body g) = [] /\ existsb (fun s => match s with Check => true | _ => false end) (f_body g) = false).
    { intros y [<-|[<-|[<-|[]]]]; (eexists; split; [vm_compute; reflexivity|split; vm_compute; reflexivity]). }
    destruct (X m Hi) as [g [Fg [E Ec]]]. inversion N as [y|y f' d z F' D N']; subst.
    + assert (f = g) as -> by congruence. assert (T : existsb (fun s => match s with Check => true | _ => false end) (f_body g) = true) by (apply existsb_exists; exists Check; auto). congruence.
    + assert (f' = g) as -> by congruence. rewrite E in D. contradiction.
  - intros Hi.
    assert (K : forallb (fun f => existsb (String.eqb (f_name f)) ["okdmr.kaitai.motorola.motorola_utils"; "okdmr.kaitai.tools.byteswap"; "okdmr.kaitai.tools.prettyprint"] ||
      existsb (fun d => match find_file files d with Some g => existsb (fun s => match s with Check => true | _ => false end) (f_body g) | None => false end) (f_name f :: match find_file files (f_name f) with Some f => flat_map stmt_imports (f_body f) | None => [] end)) files = true) by (vm_compute; reflexivity).
    apply in_map_iff in Hm as [f [<- Hf]]. rewrite forallb_forall in K. specialize (K f Hf). apply orb_true_iff in K as [K|K].
    + exfalso. apply Hi. apply existsb_exists in K as [y [Hy E]]. apply String.eqb_eq in E. now subst.
    + apply existsb_exists in K as [d [Hd E]]. destruct (find_file files d) as [g|] eqn:Fd; [|discriminate]. apply existsb_exists in E as [s [Hs Es]]. assert (s = Check) as -> by (destruct s; congruence).
      exists d, g. split; [|now split]. destruct Hd as [<-|Hd]; [constructor|]. destruct (find_file files (f_name f)) as [h|] eqn:Fh; [|contradiction]. eapply needs_import; [exact Fh|exact Hd|constructor].
Qed.

(** ** Two runs *)
Example C62_example_supported : fst (run (Some [0; 11]%Z) 5 ["okdmr.kaitai.tools.debug_hytera"; "okdmr.kaitai.hytera.radio_ip"]) = [Done; Done] /\
  List.length (ran (snd (run (Some [0; 11]%Z) 5 ["okdmr.kaitai.tools.debug_hytera"; "okdmr.kaitai.hytera.radio_ip"]))) = 19.
Proof. vm_compute. split; reflexivity. Qed.
Example C62_example_old : fst (run (Some [0; 8]%Z) 5 ["okdmr.kaitai.tools.byteswap"; "okdmr.kaitai.tools.debug"; "okdmr.kaitai.tools.debug"]) = [Done; Raised Incompatible; Raised Incompatible].
Proof. vm_compute. reflexivity. Qed.
Definition C62_all := (C62_every_order_works, C62_order_does_not_matter, C62_old_runtime_is_refused, C62_modules_without_the_runtime).
Print Assumptions C62_all.
