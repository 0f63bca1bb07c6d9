(** Importing modules whose imports are not circular.  (Support for C62.) *)
From Coq Require Import ZArith List String Bool Lia.
From Verif Require Import ImportModel.
Import ListNotations.
Open Scope string_scope.
Open Scope list_scope.
Open Scope nat_scope.

Fixpoint names_after (acc : names) (l : list stmt) : names := match l with [] => acc | s :: r => names_after (binds s ++ acc) r end.
Definition final (f : file) : names := names_after [] (f_body f).
Definition has (l : names) (x : string) : bool := match bound x l with Some _ => true | None => false end.

Section Graph.
Context (api : option (list Z)) (modules : list file) (rank : string -> nat).
Notation find_file := (find_file modules).
Definition stmt_ok (acc : names) (s : stmt) : bool :=
  match s with
  | Check => has acc "kaitaistruct"
  | Define _ uses => forallb (has acc) uses
  | FromModule m l => match find_file m with Some f => forallb (has (final f)) l | None => false end
  | _ => true
  end.
Fixpoint body_ok (acc : names) (l : list stmt) : bool := match l with [] => true | s :: r => stmt_ok acc s && body_ok (binds s ++ acc) r end.
Definition lower (m d : string) : bool := match find_file d with Some _ => Nat.ltb (rank d) (rank m) | None => false end.
Definition file_ok (f : file) : bool := body_ok [] (f_body f) && forallb (lower (f_name f)) (flat_map stmt_imports (f_body f)).
Hypothesis Hok : forallb file_ok modules = true.

Notation needs := (needs modules).
Definition old : bool := tuple_lt (match api with Some v => v | None => [0%Z; 9%Z] end) [0%Z; 9%Z].
Definition bad (m : string) : Prop := old = true /\ exists x f, needs m x /\ find_file x = Some f /\ In Check (f_body f).
Definition good (w : world) (m : string) : Prop := forall y, needs m y -> exists f, find_file y = Some f /\ loaded w y = Some (final f) /\ (old = true -> ~ In Check (f_body f)).

Lemma find_name m f : find_file m = Some f -> f_name f = m /\ file_ok f = true.
Proof. intros H. apply find_some in H as [Hi E]. apply String.eqb_eq in E. split; [exact E|]. now apply (proj1 (forallb_forall _ _) Hok). Qed.
Lemma dep_lower m f d : find_file m = Some f -> In d (flat_map stmt_imports (f_body f)) -> (exists g, find_file d = Some g) /\ rank d < rank m.
Proof.
  intros H Hd. apply find_name in H as [<- H]. unfold file_ok in H. apply andb_true_iff in H as [_ H]. rewrite forallb_forall in H. specialize (H d Hd). unfold lower in H. destruct (find_file d) as [g|]; [|discriminate].
  apply Nat.ltb_lt in H. eauto.
Qed.
Lemma needs_rank m x : needs m x -> x = m \/ rank x < rank m.
Proof. induction 1 as [m|m f d x F D N IH]; [now left|]. right. destruct (dep_lower _ _ _ F D) as [_ L]. destruct IH as [->|]; lia. Qed.
Lemma good_not_bad w m : good w m -> ~ bad m.
Proof. intros G [O [x [f [N [F C]]]]]. destruct (G x N) as [g [F' [_ H]]]. assert (f = g) as -> by congruence. now apply H. Qed.
Definition extends (w w' : world) : Prop := forall x l, loaded w x = Some l -> loaded w' x = Some l.
Lemma good_extends w w' m : extends w w' -> good w m -> good w' m.
Proof. intros E G y N. destruct (G y N) as [f [F [L H]]]. exists f. auto. Qed.
Lemma good_needs w m x : good w m -> needs m x -> good w x.
Proof. intros G N y Ny. apply G. clear G. induction N as [m|m f d x F D N IH]; [exact Ny|]. eapply needs_import; eauto. Qed.

(** modules executed in between: each once, and exactly those that are new *)
Definition once (w w' : world) : Prop := exists new, ran w' = new ++ ran w /\ NoDup new /\ forall x, In x new <-> loaded w x = None /\ loaded w' x <> None.
Definition fresh (m : string) (w w' : world) : Prop := forall x, loaded w x = None -> loaded w' x <> None -> good w' x /\ needs m x.
Definition result (m : string) (w : world) (r : outcome * world) : Prop :=
  extends w (snd r) /\ fresh m w (snd r) /\
  match fst r with Done => good (snd r) m /\ once w (snd r) | Raised e => e = Incompatible /\ bad m end.
Lemma set_same w m v x : loaded (set w m v) x = if String.eqb x m then v else loaded w x. Proof. reflexivity. Qed.

Section Body.
Context (n : nat) (m : string) (f : file).
Hypothesis Hf : find_file m = Some f.
Hypothesis IH : forall d g w, find_file d = Some g -> rank d < rank m -> (forall x, rank x <= rank d -> loaded w x <> None -> good w x) -> result d w (import api modules n d w).
(** states while the body of [m] is executed *)
Definition others (w w' : world) : Prop := forall x l, x <> m -> loaded w x = Some l -> loaded w' x = Some l.
Definition once' (w w' : world) : Prop := exists new, ran w' = new ++ ran w /\ NoDup new /\ forall x, In x new <-> loaded w x = None /\ loaded w' x <> None.
Lemma good_others w w' x : others w w' -> rank x < rank m -> good w x -> good w' x.
Proof. intros E R G y N. destruct (G y N) as [g [F [L H]]]. exists g. split; [exact F|]. split; [|exact H]. apply E; [|exact L]. intros ->. apply needs_rank in N as [->|]; lia. Qed.
Lemma bind_loaded l w acc x : loaded w m = Some acc -> loaded (bind_names m l w) x = if String.eqb x m then Some (l ++ acc) else loaded w x.
Proof. intros E. unfold bind_names. rewrite E. reflexivity. Qed.
Lemma bind_ran l w : ran (bind_names m l w) = ran w.
Proof. unfold bind_names. destruct (loaded w m); reflexivity. Qed.
Lemma defined_has w acc x : loaded w m = Some acc -> defined m x w = has acc x.
Proof. intros E. unfold defined. rewrite E. reflexivity. Qed.
Definition body_result (acc : names) (l : list stmt) (w : world) (r : outcome * world) : Prop :=
  let w' := snd r in others w w' /\ (forall x, loaded w x = None -> loaded w' x <> None -> x <> m /\ good w' x /\ needs m x) /\
  match fst r with
  | Done => loaded w' m = Some (names_after acc l) /\ (forall d, In d (flat_map stmt_imports l) -> good w' d) /\ (old = true -> ~ In Check l) /\ once' w w'
  | Raised e => e = Incompatible /\ bad m
  end.
Lemma once_refl w w' : ran w' = ran w -> (forall x, loaded w x = None -> loaded w' x = None) -> once' w w'.
Proof. intros E H. exists []. split; [exact E|]. split; [constructor|]. intros x. split; [contradiction|]. intros [A B]. apply B. now apply H. Qed.
Lemma once_trans w w1 w2 : once' w w1 -> once' w1 w2 -> (forall x, loaded w1 x <> None -> loaded w2 x <> None) -> (forall x, loaded w x <> None -> loaded w1 x <> None) -> once' w w2.
Proof.
  intros [n1 [R1 [D1 E1]]] [n2 [R2 [D2 E2]]] H H0. exists (n2 ++ n1). split; [rewrite R2, R1; apply app_assoc|]. split.
  - assert (X : forall x, In x n2 -> ~ In x n1). { intros x H2 H1. apply E1 in H1 as [_ H1]. apply E2 in H2 as [H2 _]. contradiction. }
    clear R1 R2 E1 E2. induction n2 as [|y l IHl]; [exact D1|]. cbn [app]. inversion D2; subst. constructor; [|apply IHl; [assumption|intros x Hx; apply X; now right]]. rewrite in_app_iff. intros [Hy|Hy]; [contradiction|]. exact (X y (or_introl eq_refl) Hy).
  - intros x. rewrite in_app_iff, E1, E2. split.
    + intros [[A B]|[A B]].
      * split; [|exact B]. destruct (loaded w x) eqn:E; [|reflexivity]. exfalso. apply (H0 x); [congruence|exact A].
      * split; [exact A|]. now apply H.
    + intros [A B]. destruct (loaded w1 x) eqn:E; [|left; now split]. right. split; [exact A|discriminate].
Qed.

Lemma body_runs : forall l acc w, incl l (f_body f) -> body_ok acc l = true -> loaded w m = Some acc ->
  (forall x, rank x < rank m -> loaded w x <> None -> good w x) -> body_result acc l w (exec_body api (import api modules n) m l w).
Proof.
  induction l as [|s l IHl]; intros acc w Hi K Hm Hw.
  - cbn [exec_body]. split; [intros x y _ E; exact E|]. split; [intros x A B; contradiction|]. cbn [fst snd names_after flat_map]. split; [exact Hm|]. split; [contradiction|]. split; [auto|]. apply once_refl; auto.
  - cbn [body_ok] in K. apply andb_true_iff in K as [Ks Kl]. cbn [exec_body].
    assert (Hs : In s (f_body f)) by (apply Hi; now left). assert (Hl : incl l (f_body f)) by (intros x Hx; apply Hi; now right).
    (* statements that import nothing *)
    assert (Plain : forall w1, exec_stmt api (import api modules n) m s w = (Done, w1) -> ran w1 = ran w -> (forall x, loaded w1 x = if String.eqb x m then Some (binds s ++ acc) else loaded w x) -> stmt_imports s = [] -> (old = true -> s <> Check) ->
      body_result acc (s :: l) w (match exec_stmt api (import api modules n) m s w with (Done, w0) => exec_body api (import api modules n) m l w0 | x => x end)).
    { intros w1 E R1 L1 Si Sc. rewrite E.
      assert (Oth : others w w1). { intros x v N E1. rewrite L1. destruct (String.eqb_spec x m); [contradiction|exact E1]. }
      destruct (IHl (binds s ++ acc) w1 Hl Kl) as [A [B C]].
      - rewrite L1, String.eqb_refl. reflexivity.
      - intros x R Lx. apply (good_others w w1 x Oth R). apply Hw; [exact R|]. rewrite L1 in Lx. destruct (String.eqb_spec x m) as [->|]; [lia|exact Lx].
      - set (r := exec_body api (import api modules n) m l w1) in *. split; [intros x v N E1; apply A; [exact N|now apply Oth]|]. split.
        + intros x N1 N2. apply B; [|exact N2]. rewrite L1. destruct (String.eqb_spec x m) as [->|]; [congruence|exact N1].
        + destruct (fst r); [|exact C]. destruct C as [C1 [C2 [C3 C4]]]. split; [exact C1|]. split; [|split].
          * intros d Hd. cbn [flat_map] in Hd. rewrite Si in Hd. now apply C2.
          * intros O [Ec|Ec]; [exact (Sc O Ec)|exact (C3 O Ec)].
          * eapply once_trans; [| exact C4| |].
            -- apply once_refl; [exact R1|]. intros x N. rewrite L1. destruct (String.eqb_spec x m) as [->|]; [congruence|exact N].
            -- intros x N. destruct (String.eqb_spec x m) as [->|Nx]; [rewrite C1; discriminate|]. destruct (loaded w1 x) as [v|] eqn:E1; [|contradiction]. rewrite (A x v Nx E1). discriminate.
            -- intros x N. rewrite L1. destruct (String.eqb_spec x m); [discriminate|exact N]. }
    (* statements that import the module [d] *)
    assert (Dep : forall d g, stmt_imports s = [d] -> find_file d = Some g -> s <> Check ->
      (forall w1, import api modules n d w = (Done, w1) -> loaded w1 m = Some acc -> good w1 d -> exec_stmt api (import api modules n) m s w = (Done, bind_names m (binds s) w1)) ->
      (forall e w1, import api modules n d w = (Raised e, w1) -> exec_stmt api (import api modules n) m s w = (Raised e, w1)) ->
      body_result acc (s :: l) w (match exec_stmt api (import api modules n) m s w with (Done, w0) => exec_body api (import api modules n) m l w0 | x => x end)).
    { intros d g Si Fd Sc ED EE. assert (Dd : In d (flat_map stmt_imports (f_body f))) by (apply in_flat_map; exists s; split; [exact Hs|rewrite Si; now left]).
      destruct (dep_lower m f d Hf Dd) as [_ Rd].
      assert (Hw' : forall x, rank x <= rank d -> loaded w x <> None -> good w x) by (intros x R; apply Hw; lia).
      pose proof (IH d g w Fd Rd Hw') as [X1 [X2 X3]]. destruct (import api modules n d w) as [[|e] w1] eqn:E; cbn [fst snd] in X1, X2, X3.
      - destruct X3 as [Gd On]. assert (Hm1 : loaded w1 m = Some acc) by (now apply X1). rewrite (ED w1 eq_refl Hm1 Gd). set (w2 := bind_names m (binds s) w1).
        assert (L2 : forall x, loaded w2 x = if String.eqb x m then Some (binds s ++ acc) else loaded w1 x) by (intros x; apply bind_loaded; exact Hm1).
        assert (Oth : others w1 w2). { intros x v N E1. rewrite L2. destruct (String.eqb_spec x m); [contradiction|exact E1]. }
        assert (New : forall x, loaded w x = None -> loaded w1 x <> None -> rank x < rank m). { intros x N1 N2. destruct (X2 x N1 N2) as [_ Nd]. apply needs_rank in Nd as [->|]; lia. }
        assert (Hw2 : forall x, rank x < rank m -> loaded w2 x <> None -> good w2 x).
        { intros x R Lx. apply (good_others w1 w2 x Oth R). rewrite L2 in Lx. destruct (String.eqb_spec x m) as [->|]; [lia|]. destruct (loaded w x) as [v|] eqn:Ew; [|now apply X2]. apply (good_extends w w1 x X1). apply Hw; [exact R|congruence]. }
        destruct (IHl (binds s ++ acc) w2 Hl Kl) as [A [B C]]; [rewrite L2, String.eqb_refl; reflexivity|exact Hw2|]. set (r := exec_body api (import api modules n) m l w2) in *.
        assert (A12 : others w w2) by (intros x v N E1; apply Oth; [exact N|now apply X1]).
        split; [intros x v N E1; apply A; [exact N|now apply A12]|]. split.
        + intros x N1 N2. destruct (loaded w2 x) eqn:E2; [|now apply B].
          assert (Nm : x <> m) by (intros ->; congruence). assert (N3 : loaded w1 x <> None). { rewrite L2 in E2. destruct (String.eqb_spec x m); [contradiction|congruence]. }
          destruct (X2 x N1 N3) as [Gx Nx]. split; [exact Nm|]. split; [|eapply needs_import; eauto]. apply (good_others w2 (snd r) x A (New x N1 N3)). now apply (good_others w1 w2 x Oth (New x N1 N3)).
        + destruct (fst r); [|exact C]. destruct C as [C1 [C2 [C3 C4]]]. split; [exact C1|]. split; [|split].
          * intros y Hy. cbn [flat_map] in Hy. rewrite Si in Hy. destruct Hy as [<-|Hy]; [|now apply C2]. apply (good_others w2 (snd r) d A Rd). now apply (good_others w1 w2 d Oth Rd).
          * intros O [Ec|Ec]; [exact (Sc Ec)|exact (C3 O Ec)].
          * eapply once_trans; [|exact C4| |].
            -- eapply once_trans; [exact On|apply once_refl; [apply bind_ran|]| |].
               ++ intros x N. rewrite L2. destruct (String.eqb_spec x m) as [->|]; [congruence|exact N].
               ++ intros x N. rewrite L2. destruct (String.eqb_spec x m); [discriminate|exact N].
               ++ intros x N. destruct (loaded w x) as [v|] eqn:E1; [|contradiction]. rewrite (X1 x v E1). discriminate.
            -- intros x N. destruct (String.eqb_spec x m) as [->|Nx]; [rewrite C1; discriminate|]. destruct (loaded w2 x) as [v|] eqn:E1; [|contradiction]. rewrite (A x v Nx E1). discriminate.
            -- intros x N. rewrite L2. destruct (String.eqb_spec x m); [discriminate|]. destruct (loaded w x) as [v|] eqn:E1; [|contradiction]. rewrite (X1 x v E1). discriminate.
      - destruct X3 as [-> Bd]. rewrite (EE _ w1 eq_refl). split; [intros x v _ E1; now apply X1|]. split.
        + intros x N1 N2. cbn [snd] in N2. destruct (X2 x N1 N2) as [Gx Nx]. split; [intros ->; congruence|]. split; [exact Gx|]. eapply needs_import; eauto.
        + cbn [fst]. split; [reflexivity|]. destruct Bd as [O [x [fx [N [Fx Cx]]]]]. split; [exact O|]. exists x, fx. split; [|auto]. eapply needs_import; eauto. }
    destruct s as [em el| |p sub|d dl|x uses].
    + eapply Plain; [reflexivity|apply bind_ran|intros x; now apply bind_loaded|reflexivity|discriminate].
    + cbn [stmt_ok] in Ks. assert (E : exec_stmt api (import api modules n) m Check w = if old then (Raised Incompatible, w) else (Done, w)).
      { unfold exec_stmt. rewrite (defined_has w acc _ Hm), Ks. cbn [negb]. reflexivity. }
      destruct old eqn:O.
      * rewrite E. split; [intros y v _ E1; exact E1|]. split; [intros y A B; contradiction|]. cbn [fst]. split; [reflexivity|]. split; [exact O|]. exists m, f. split; [constructor|]. now split.
      * eapply Plain; [exact E|reflexivity| |reflexivity|intros; congruence]. intros x. destruct (String.eqb_spec x m) as [->|]; [exact Hm|reflexivity].
    + assert (Fd : exists g, find_file (p ++ "." ++ sub)%string = Some g) by (apply (dep_lower m f _ Hf); apply in_flat_map; eexists; split; [exact Hs|now left]). destruct Fd as [g Fd].
      apply (Dep _ g eq_refl Fd); [discriminate| |]; intros; cbn [exec_stmt]; match goal with H : import _ _ _ _ _ = _ |- _ => rewrite H end; reflexivity.
    + cbn [stmt_ok] in Ks. destruct (find_file d) as [g|] eqn:Fd; [|discriminate].
      apply (Dep d g eq_refl Fd); [discriminate| |]; intros; cbn [exec_stmt]; match goal with H : import _ _ _ _ _ = _ |- _ => rewrite H end; [|reflexivity].
      match goal with H : good _ d |- _ => destruct (H d (needs_self modules d)) as [g' [Fg [Lg _]]] end. assert (g' = g) as -> by congruence.
      match goal with |- (if ?c then _ else _) = _ => assert (E : c = true) end; [|now rewrite E]. apply forallb_forall. intros y Hy. unfold defined. rewrite Lg. exact (proj1 (forallb_forall _ _) Ks y Hy).
    + cbn [stmt_ok] in Ks. eapply Plain; [|apply bind_ran|intros y; now apply bind_loaded|reflexivity|discriminate]. cbn [exec_stmt].
      match goal with |- (if ?c then _ else _) = _ => assert (E : c = true) end; [|now rewrite E]. apply forallb_forall. intros y Hy. rewrite (defined_has w acc y Hm). exact (proj1 (forallb_forall _ _) Ks y Hy).
Qed.
End Body.

Lemma import_works : forall n m f w, find_file m = Some f -> rank m < n -> (forall x, rank x <= rank m -> loaded w x <> None -> good w x) -> result m w (import api modules n m w).
Proof.
  induction n as [|n IHn]; intros m f w Hf Hr Hw; [lia|]. destruct (loaded w m) as [v|] eqn:Hm.
  - assert (E : import api modules (S n) m w = (Done, w)) by (cbn [import]; now rewrite Hm). rewrite E. split; [intros x l L; exact L|]. split; [intros x A B; contradiction|]. cbn [fst snd]. split; [apply Hw; [lia|congruence]|].
    exists []. split; [reflexivity|]. split; [constructor|]. intros x. split; [contradiction|]. intros [A B]. contradiction.
  - set (w0 := {| loaded := loaded (set w m (Some [])); ran := m :: ran w |}).
    assert (E : import api modules (S n) m w = match exec_body api (import api modules n) m (f_body f) w0 with (Done, w1) => (Done, w1) | (Raised e, w1) => (Raised e, set w1 m None) end).
    { cbn [import]. rewrite Hm, Hf. reflexivity. }
    rewrite E. clear E. assert (L0 : forall x, loaded w0 x = if String.eqb x m then Some [] else loaded w x) by reflexivity.
    assert (O0 : forall x l, loaded w x = Some l -> x <> m /\ loaded w0 x = Some l). { intros x l L. assert (x <> m) by congruence. split; [assumption|]. rewrite L0. destruct (String.eqb_spec x m); [contradiction|exact L]. }
    pose proof (body_runs n m f Hf) as B. specialize (B (fun d g w1 Fd Rd => IHn d g w1 Fd ltac:(lia)) (f_body f) [] w0 (incl_refl _)).
    destruct (find_name _ _ Hf) as [Nf Kf]. unfold file_ok in Kf. apply andb_true_iff in Kf as [Kf _].
    destruct B as [A [B C]]; [exact Kf|rewrite L0, String.eqb_refl; reflexivity| |].
    { intros x R Lx. assert (x <> m) by (intros ->; lia). assert (loaded w x <> None) by (rewrite L0 in Lx; destruct (String.eqb_spec x m); [contradiction|exact Lx]).
      assert (G : good w x) by (apply Hw; [lia|assumption]). intros y N. destruct (G y N) as [g [Fg [Lg H2]]]. exists g. split; [exact Fg|]. split; [|exact H2]. now apply O0. }
    destruct (exec_body api (import api modules n) m (f_body f) w0) as [[|e] w1]; cbn [fst snd] in A, B, C |- *.
    + destruct C as [C1 [C2 [C3 C4]]].
      assert (Gm : good w1 m).
      { intros y N. inversion N; subst.
        - exists f. split; [exact Hf|]. split; [exact C1|exact C3].
        - assert (f0 = f) as -> by congruence. eapply C2; eassumption. }
      split; [intros x l L; destruct (O0 x l L); now apply A|]. split.
      * intros x N1 N2. destruct (String.eqb_spec x m) as [->|Nx]; [split; [exact Gm|constructor]|]. apply B; [|exact N2]. rewrite L0. destruct (String.eqb_spec x m); [contradiction|exact N1].
      * split; [exact Gm|]. destruct C4 as [new [R [D I]]]. exists (new ++ [m]). cbn [snd]. split; [rewrite R; unfold w0; cbn [ran]; now rewrite <- app_assoc|]. split.
        -- assert (Nm : ~ In m new) by (intros Hi; apply I in Hi as [Hi _]; rewrite L0, String.eqb_refl in Hi; discriminate).
           clear - D Nm. induction new as [|y l IHl]; [constructor; [intros []|constructor]|]. cbn [app]. inversion D; subst. constructor; [|apply IHl; [assumption|intros Hy; apply Nm; now right]]. rewrite in_app_iff. intros [Hy|[Hy|[]]]; [contradiction|]. apply Nm. now left.
        -- intros x. rewrite in_app_iff, I, L0. cbn [In]. destruct (String.eqb_spec x m) as [->|Nx].
           ++ split; [|auto]. intros _. split; [exact Hm|]. rewrite C1. discriminate.
           ++ split; [intros [H|[H|[]]]; [exact H|congruence]|]. auto.
    + destruct C as [-> Bm]. split; [|split; [|now split]].
      * intros x l L. destruct (O0 x l L) as [Nx L1]. cbn [snd]. rewrite set_same. destruct (String.eqb_spec x m); [contradiction|]. now apply A.
      * intros x N1 N2. cbn [snd] in N2. rewrite set_same in N2. destruct (String.eqb_spec x m) as [->|Nx]; [contradiction|]. destruct (B x) as [_ [Gx Nd]]; [rewrite L0; destruct (String.eqb_spec x m); [contradiction|exact N1]|exact N2|].
        split; [|exact Nd]. intros y Ny. destruct (Gx y Ny) as [g [Fg [Lg H2]]]. exists g. split; [exact Fg|]. split; [|exact H2]. cbn [snd]. rewrite set_same. destruct (String.eqb_spec y m) as [->|]; [|exact Lg].
        exfalso. apply needs_rank in Nd as [->|Rx]; [contradiction|]. apply needs_rank in Ny as [->|]; [contradiction|lia].
Qed.
End Graph.
