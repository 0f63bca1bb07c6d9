(** Proofs for C65: interleavings of property accesses. *)
From Verif Require Import PyBase Runtime Codec Enums RuntimeProofs Getters EtsiModel HomebrewModel HyteraModel MotorolaModel LazyModel KsySchema KsyTyped SessionModel SessionProofs ThreadModel.
Open Scope string_scope.
Open Scope list_scope.
Open Scope Z_scope.

(** ** Dictionaries *)
Lemma lookup_set n v m a : lookup m (set_attr n v a) = if String.eqb m n then Some v else lookup m a.
Proof.
  induction a as [|[k w] a IH]; cbn [set_attr lookup]; [reflexivity|].
  destruct (String.eqb_spec n k) as [->|N]; cbn [lookup].
  - destruct (String.eqb_spec m k); reflexivity.
  - rewrite IH. destruct (String.eqb_spec m k) as [->|]; [|reflexivity]. destruct (String.eqb_spec k n) as [->|]; [contradiction|reflexivity].
Qed.
Lemma set_same n v a : lookup n a = Some v -> set_attr n v a = a.
Proof.
  induction a as [|[k w] a IH]; cbn [set_attr lookup]; [discriminate|]. destruct (String.eqb_spec n k) as [->|N]; [congruence|]. intros H. now rewrite IH.
Qed.
Lemma set_new n v a : lookup n a = None -> set_attr n v a = a ++ [(n, v)].
Proof. induction a as [|[k w] a IH]; cbn [set_attr lookup app]; [reflexivity|]. destruct (String.eqb n k); [discriminate|]. intros H. now rewrite IH. Qed.
Lemma lookup_app n a b : lookup n (a ++ b) = match lookup n a with Some v => Some v | None => lookup n b end.
Proof. induction a as [|[k w] a IH]; cbn [lookup app]; [reflexivity|]. destruct (String.eqb n k); [reflexivity|exact IH]. Qed.

(** ** Any invariant *)
Section Leads.
Context (Inv : live -> Prop).
Definition has (ks : list string) (o : live) : Prop := forall n, In n ks -> lookup n (l_attrs o) <> None.
Definition grows (o o' : live) : Prop := forall n, lookup n (l_attrs o) <> None -> lookup n (l_attrs o') <> None.
(** The code reaches an answer of [Q] within [n] steps, whatever the others do, if the attributes [ks] are there. *)
Inductive leads (Q : res pyval -> Prop) : list string -> nat -> prog -> Prop :=
| L_done ks n r : Q r -> leads Q ks n (Done r)
| L_step ks (ks' : live -> list string) n f k : (forall o, Inv o -> has ks o -> Inv (f o) /\ has (ks' o) (f o) /\ grows o (f o)) ->
    (forall o, Inv o -> has ks o -> leads Q (ks' o) n (k o)) -> leads Q ks (S n) (Step f k).
Lemma has_grows ks o o' : has ks o -> grows o o' -> has ks o'. Proof. intros H G n I. apply G, H, I. Qed.
Lemma grows_refl o : grows o o. Proof. intros n H. exact H. Qed.
Lemma leads_local Q ks n k : (forall o, Inv o -> has ks o -> leads Q ks n (k o)) -> leads Q ks (S n) (local k).
Proof. intros H. apply (L_step Q ks (fun _ => ks)); [intros o I K; split; [exact I|split; [exact K|apply grows_refl]]|exact H]. Qed.

Lemma leads_more Q ks n m p : leads Q ks n p -> (n <= m)%nat -> leads Q ks m p.
Proof.
  intros L. revert m. induction L as [ks n r q|ks ks' n f k F K IH]; intros m H; [now constructor|]. destruct m as [|m]; [lia|].
  apply (L_step Q ks ks'); [exact F|]. intros o I A. apply IH; [exact I|exact A|lia].
Qed.
Lemma leads_has Q ks ks' n p : leads Q ks n p -> incl ks ks' -> leads Q ks' n p.
Proof.
  intros L S. destruct L as [ks n r q|ks kf n f k F K]; [now constructor|]. assert (H : forall o, has ks' o -> has ks o) by (intros o A x X; apply A, S, X).
  apply (L_step Q ks' kf); auto.
Qed.
(** the look into the cache, when what is found there is right *)
Lemma leads_cached (Q : res pyval -> Prop) ks n x rest : (forall o v, Inv o -> lookup ("_m_" ++ x) (l_attrs o) = Some v -> Q (Ok v)) ->
  (1 <= n)%nat -> leads Q ks n rest -> leads Q ks (S n) (unless_cached x rest).
Proof.
  intros C N1 L. unfold unless_cached, local. apply (L_step Q ks (fun o => match lookup ("_m_" ++ x) (l_attrs o) with Some _ => ["_m_" ++ x] | None => ks end)%string).
  - intros o I H. split; [exact I|]. split; [|apply grows_refl]. destruct (lookup ("_m_" ++ x) (l_attrs o)) eqn:E; [|exact H]. intros y [<-|[]]. congruence.
  - intros o I H. destruct (lookup ("_m_" ++ x) (l_attrs o)) as [v|] eqn:E; [|exact L]. destruct n as [|n]; [lia|].
    apply leads_local. intros o' I' H'. specialize (H' _ (or_introl eq_refl)). destruct (lookup ("_m_" ++ x) (l_attrs o')) as [w|] eqn:E'; [|contradiction]. constructor. exact (C _ _ I' E').
Qed.
Lemma leads_return (Q : res pyval -> Prop) x : (forall o v, Inv o -> lookup ("_m_" ++ x) (l_attrs o) = Some v -> Q (Ok v)) -> leads Q ["_m_" ++ x]%string 1 (return_cached x).
Proof.
  intros C. apply leads_local. intros o I H. specialize (H _ (or_introl eq_refl)). constructor. destruct (lookup ("_m_" ++ x) (l_attrs o)) as [w|] eqn:E; [|contradiction]. exact (C _ _ I E).
Qed.
Lemma leads_assign (Q : res pyval -> Prop) ks n x v p : (forall o, Inv o -> Inv {| l_attrs := set_attr x v (l_attrs o); l_io := l_io o |}) ->
  leads Q (x :: ks) n p -> leads Q ks (S n) (assign x v p).
Proof.
  intros C L. apply (L_step Q ks (fun _ => x :: ks)); [|intros; exact L]. intros o I H. split; [now apply C|].
  assert (G : grows o {| l_attrs := set_attr x v (l_attrs o); l_io := l_io o |}) by (intros n' K; cbn [l_attrs]; rewrite lookup_set; destruct (String.eqb n' x); [discriminate|exact K]).
  split; [|exact G]. intros y [<-|Y]; [cbn [l_attrs]; rewrite lookup_set, String.eqb_refl; discriminate|]. apply G, H, Y.
Qed.

End Leads.

Section Threads.
Context (rt : runtime) (c : string) (Inv : live -> Prop) (N : nat) (R : string -> res pyval -> Prop).
Notation leads := (leads Inv).
Definition answered (done : list string) (log : list (string * res pyval)) : Prop := Forall2 (fun x e => fst e = x /\ R x (snd e)) done log.
Definition ti (o : live) (t : thread) (todo : list string) (m : nat) : Prop := exists done, answered done (t_log t) /\
  match t_now t with
  | None => todo = done ++ t_todo t /\ ((N + 2) * List.length (t_todo t) <= m)%nat
  | Some (x, p) => todo = done ++ x :: t_todo t /\ exists ks n, has ks o /\ leads (R x) ks n p /\ (n + 1 + (N + 2) * List.length (t_todo t) <= m)%nat
  end.
Lemma ti_grows o o' t todo m : grows o o' -> ti o t todo m -> ti o' t todo m.
Proof.
  intros G [done [A H]]. exists done. split; [exact A|]. destruct (t_now t) as [[x p]|]; [|exact H]. destruct H as [E [ks [n [H1 [H2 H3]]]]]. split; [exact E|]. exists ks, n. split; [exact (has_grows _ _ _ H1 G)|]. now split.
Qed.
Lemma ti_step o t todo m : Inv o -> ti o t todo m -> (forall x, In x todo -> leads (R x) [] N (code rt c x)) ->
  let '(t', o') := thread_step rt c t o in Inv o' /\ grows o o' /\ ti o' t' todo (pred m).
Proof.
  intros I [done [A H]] C. unfold thread_step. destruct t as [now td log]. cbn [t_now t_todo t_log] in *. destruct now as [[x p]|].
  - destruct H as [E [ks [n [H1 [H2 H3]]]]]. destruct H2 as [ks n r Q|ks ks' n f k F K].
    + split; [exact I|]. split; [apply grows_refl|]. exists (done ++ [x]). cbn [t_log t_now t_todo]. split; [apply Forall2_app; [exact A|constructor; [split; [reflexivity|exact Q]|constructor]]|].
      split; [rewrite <- app_assoc; exact E|lia].
    + destruct (F o I H1) as [I' [H' G]]. split; [exact I'|]. split; [exact G|]. exists done. cbn [t_log t_now t_todo]. split; [exact A|]. split; [exact E|]. exists (ks' o), n. split; [exact H'|]. split; [exact (K o I H1)|lia].
  - destruct H as [E H3]. destruct td as [|x td]; cbn [List.length] in H3.
    + split; [exact I|]. split; [apply grows_refl|]. exists done. cbn [t_log t_now t_todo List.length]. split; [exact A|]. split; [exact E|lia].
    + split; [exact I|]. split; [apply grows_refl|]. exists done. cbn [t_log t_now t_todo]. split; [exact A|]. split; [exact E|]. exists [], N. split; [intros ? []|]. split; [apply C; rewrite E; apply in_or_app; right; now left|lia].
Qed.
Lemma nth_set_same {A} i (x y : A) l : nth_error l i = Some y -> nth_error (set_nth i x l) i = Some x.
Proof. revert i. induction l as [|z l IH]; intros [|i]; cbn; try discriminate; [reflexivity|apply IH]. Qed.
Lemma nth_set_other {A} i j (x : A) l : i <> j -> nth_error (set_nth i x l) j = nth_error l j.
Proof. revert i j. induction l as [|z l IH]; intros [|i] [|j] H; cbn; try reflexivity; [contradiction|]. apply IH. congruence. Qed.
Definition times (i : nat) (schedule : list nat) : nat := count_occ Nat.eq_dec schedule i.
Lemma run_all schedule : forall ts o (todos : nat -> list string) (m : nat -> nat), Inv o ->
  (forall i t, nth_error ts i = Some t -> ti o t (todos i) (m i) /\ forall x, In x (todos i) -> leads (R x) [] N (code rt c x)) ->
  let '(ts', o') := threads_run rt c schedule ts o in Inv o' /\ List.length ts' = List.length ts /\
    forall i t, nth_error ts' i = Some t -> ti o' t (todos i) (m i - times i schedule)%nat.
Proof.
  induction schedule as [|j schedule IH]; intros ts o todos m I H; cbn [threads_run].
  - split; [exact I|]. split; [reflexivity|]. intros i t T. destruct (H i t T) as [X _]. unfold times. cbn [count_occ]. now rewrite Nat.sub_0_r.
  - assert (TJ : nth_error ts j = None -> forall i t, nth_error ts i = Some t -> times i (j :: schedule) = times i schedule).
    { intros E i t T. unfold times. cbn [count_occ]. destruct (Nat.eq_dec j i) as [->|]; [congruence|reflexivity]. }
    destruct (nth_error ts j) as [t|] eqn:Tj.
    + destruct (H j t Tj) as [Ti C]. pose proof (ti_step o t (todos j) (m j) I Ti C) as S. destruct (thread_step rt c t o) as [t' o']. destruct S as [I' [G T']].
      specialize (IH (set_nth j t' ts) o' todos (fun i => if Nat.eqb i j then pred (m i) else m i) I').
      assert (L : List.length (set_nth j t' ts) = List.length ts) by (clear; revert j; induction ts as [|z l IHl]; intros [|j]; cbn; auto).
      rewrite L in IH. match type of IH with (?A -> _) => assert (P : A) end.
      { intros i u U. destruct (Nat.eqb_spec i j) as [->|Nij].
        - rewrite (nth_set_same j t' t ts Tj) in U. injection U as <-. split; [exact T'|exact C].
        - rewrite nth_set_other in U by congruence. destruct (H i u U) as [U1 U2]. split; [exact (ti_grows _ _ _ _ _ G U1)|exact U2]. }
      specialize (IH P). destruct (threads_run rt c schedule (set_nth j t' ts) o') as [ts' o2]. destruct IH as [J1 [J2 J3]]. split; [exact J1|]. split; [exact J2|].
      intros i u U. specialize (J3 i u U). unfold times in *. cbn [count_occ]. destruct (Nat.eqb_spec i j) as [->|Nij].
      * destruct (Nat.eq_dec j j) as [_|X]; [|contradiction]. replace (m j - S (count_occ Nat.eq_dec schedule j))%nat with (pred (m j) - count_occ Nat.eq_dec schedule j)%nat by lia. exact J3.
      * destruct (Nat.eq_dec j i) as [X|_]; [congruence|]. exact J3.
    + specialize (IH ts o todos m I H). destruct (threads_run rt c schedule ts o) as [ts' o2]. destruct IH as [J1 [J2 J3]]. split; [exact J1|]. split; [exact J2|].
      intros i u U. assert (exists w, nth_error ts i = Some w) as [w W].
      { destruct (nth_error ts i) as [w|] eqn:W; [eauto|]. apply nth_error_None in W. assert (i < List.length ts')%nat by (apply nth_error_Some; congruence). lia. }
      rewrite (TJ eq_refl i w W).
      now apply J3.
Qed.
(** Threads that start at their first access. *)
Lemma run_new schedule todos o : Inv o -> (forall todo, In todo todos -> forall x, In x todo -> leads (R x) [] N (code rt c x)) ->
  let '(ts, o') := threads_run rt c schedule (map new_thread todos) o in Inv o' /\
  forall i todo, nth_error todos i = Some todo -> exists t done, nth_error ts i = Some t /\ answered done (t_log t) /\ (exists rest, todo = done ++ rest) /\
    ((N + 2) * List.length todo <= times i schedule -> done = todo)%nat.
Proof.
  intros I C. pose proof (run_all schedule (map new_thread todos) o (fun i => nth i todos []) (fun i => ((N + 2) * List.length (nth i todos []))%nat) I) as H.
  match type of H with (?A -> _) => assert (P : A) end.
  { intros i t T. rewrite nth_error_map in T. destruct (nth_error todos i) as [todo|] eqn:E; [|discriminate]. cbn [option_map] in T. injection T as <-. rewrite (nth_error_nth _ _ _ E).
    split; [|apply C, (nth_error_In _ _ E)]. exists []. cbn [new_thread t_log t_now t_todo]. split; [constructor|]. split; [reflexivity|lia]. }
  specialize (H P). destruct (threads_run rt c schedule (map new_thread todos) o) as [ts o']. destruct H as [H1 [H2 H3]]. split; [exact H1|].
  intros i todo E. assert (exists t, nth_error ts i = Some t) as [t T].
  { destruct (nth_error ts i) as [t|] eqn:T; [eauto|]. apply nth_error_None in T. rewrite H2, map_length in T. assert (i < List.length todos)%nat by (apply nth_error_Some; congruence). lia. }
  specialize (H3 i t T). rewrite (nth_error_nth _ _ _ E) in H3. destruct H3 as [done [A H3]]. exists t, done. split; [exact T|]. split; [exact A|].
  destruct (t_now t) as [[x p]|].
  - destruct H3 as [E3 [ks [n [_ [_ H3]]]]]. split; [eauto|]. intros L. exfalso. lia.
  - destruct H3 as [E3 H3]. split; [eauto|]. intros L. destruct (t_todo t) as [|y l]; [rewrite app_nil_r in E3; congruence|]. cbn [List.length] in H3. exfalso. lia.
Qed.
End Threads.
