(** Properties C48, C49 (see properties.jsonl): prettyprint and the debug command line tools.  Each theorem
    is followed by a concrete case. *)
From Verif Require Import PyBase Runtime Codec Enums EnumProofs Getters Spec RuntimeProofs EtsiModel HomebrewModel HyteraModel MotorolaModel ToolsModel CleanProofs AllParsers DecSpec GetterProofs HyteraSpec HyteraProofs2 HyteraCor2 HyteraCor3 PropHytera2 PropHytera3 PropTools1.
From Coq Require Import ZifyBool Lia.
Open Scope string_scope.
Open Scope list_scope.
Open Scope Z_scope.

(** * C48 *)
(** [graph_of h r v]: in the object graph [h], the object at [r] is the value [v].  The bookkeeping
    attributes may refer to anything, in particular back to the object itself or its parents; all other
    entries of an object's [__dict__] are, in order, the attributes of [v]. *)
Inductive graph_of (h : heap) : ref -> pyval -> Prop :=
| graph_plain r v : nth_error h r = Some (CPlain v) -> (forall l, v <> VList l) -> (forall c a, v <> VObj c a) -> graph_of h r v
| graph_list r rs l : nth_error h r = Some (CList rs) -> graph_elems h rs l -> graph_of h r (VList l)
| graph_obj r c d a : nth_error h r = Some (CObj c d) -> graph_dict h d a -> graph_of h r (VObj c a)
with graph_elems (h : heap) : list ref -> list pyval -> Prop :=
| elems_nil : graph_elems h [] []
| elems_cons r v rs l : graph_of h r v -> graph_elems h rs l -> graph_elems h (r :: rs) (v :: l)
with graph_dict (h : heap) : list (string * ref) -> attrs -> Prop :=
| dict_nil : graph_dict h [] []
| dict_bookkeeping k r d a : In k bookkeeping -> graph_dict h d a -> graph_dict h ((k, r) :: d) a
| dict_attr k r v d a : ~ In k bookkeeping -> graph_of h r v -> graph_dict h d a -> graph_dict h ((k, r) :: d) ((k, v) :: a).

(** What is to be shown of a value: an object as the dictionary of its attributes, a list element by
    element, everything else unchanged. *)
Fixpoint show (v : pyval) : shown :=
  match v with
  | VObj _ a => SDict ((fix go (a : attrs) := match a with [] => [] | (n, x) :: a' => (n, show x) :: go a' end) a)
  | VList l => SList (map show l)
  | _ => SPlain v
  end.

Lemma show_obj c a : show (VObj c a) = SDict (map (fun nv => (fst nv, show (snd nv))) a).
Proof. cbn [show]. f_equal. induction a as [|[n x] a IH]; cbn [map fst snd]; [reflexivity|]. rewrite IH. reflexivity. Qed.

(** nesting depth *)
Fixpoint depth (v : pyval) : nat :=
  match v with
  | VObj _ a => S ((fix go (a : attrs) := match a with [] => O | (_, x) :: a' => Nat.max (depth x) (go a') end) a)
  | VList l => S ((fix go (l : list pyval) := match l with [] => O | x :: l' => Nat.max (depth x) (go l') end) l)
  | _ => O
  end.
Lemma depth_attr c a n x : In (n, x) a -> (depth x < depth (VObj c a))%nat.
Proof.
  cbn [depth]. induction a as [|[m y] a IH]; [intros []|]. intros [E|H].
  - assert (x = y) by congruence. subst. lia.
  - specialize (IH H). lia.
Qed.
Lemma depth_elem l x : In x l -> (depth x < depth (VList l))%nat.
Proof.
  cbn [depth]. induction l as [|y l IH]; [intros []|]. intros [->|H]; [lia|]. specialize (IH H). lia.
Qed.

Lemma not_acceptable_in k : not_acceptable k = true <-> In k bookkeeping.
Proof.
  unfold not_acceptable. rewrite existsb_exists. split.
  - intros [x [H1 H2]]. apply String.eqb_eq in H2. subst. exact H1.
  - intros H. exists k. split; [exact H|apply String.eqb_refl].
Qed.

(** the expression that both functions use for a value *)
Definition shown_value (fuel : nat) (h : heap) (r : ref) : option shown :=
  match nth_error h r with
  | Some (CObj _ _) => _prettyprint fuel h r
  | Some (CList l) => _array_prettyprint fuel h l
  | _ => Some (as_is h r)
  end.
Lemma pp_unfold fuel h r : _prettyprint (S fuel) h r =
  match nth_error h r with
  | Some (CObj _ dict) => option_map SDict (traverse (fun kv => option_map (pair (fst kv)) (shown_value fuel h (snd kv))) (filter (fun kv => negb (not_acceptable (fst kv))) dict))
  | _ => None
  end.
Proof. reflexivity. Qed.
Lemma ap_unfold fuel h l : _array_prettyprint (S fuel) h l = option_map SList (traverse (shown_value fuel h) l).
Proof. reflexivity. Qed.

Lemma shown_value_is h : forall n v r fuel, (depth v < n)%nat -> graph_of h r v -> (depth v <= fuel)%nat -> shown_value fuel h r = Some (show v).
Proof.
  induction n as [|n IH]; intros v r fuel Hn Hg Hf; [lia|]. unfold shown_value. inversion Hg as [r0 v0 H1 H2 H3|r0 rs l H1 H2|r0 c d a H1 H2]; subst.
  - rewrite H1. unfold as_is. rewrite H1. destruct v; try reflexivity; [destruct (H2 l eq_refl)|destruct (H3 cls attrs eq_refl)].
  - rewrite H1. destruct fuel as [|fuel]; [cbn in Hf; lia|]. rewrite ap_unfold. cbn [show].
    assert (T : traverse (shown_value fuel h) rs = Some (map show l)).
    { assert (D : forall x, In x l -> (depth x < depth (VList l))%nat) by apply depth_elem.
      revert H2 D. generalize (depth (VList l)) Hn Hf. clear -IH. intros k Hn Hf. induction 1 as [|r v rs l Hr Hs IHs]; intros D; [reflexivity|].
      cbn [traverse map]. rewrite (IH v r fuel); [|pose proof (D v (or_introl eq_refl)); lia|assumption|pose proof (D v (or_introl eq_refl)); lia].
      rewrite IHs; [reflexivity|]. intros x Hx. apply D. right. exact Hx. }
    rewrite T. reflexivity.
  - rewrite H1. destruct fuel as [|fuel]; [cbn in Hf; lia|]. rewrite pp_unfold, H1, show_obj.
    assert (T : traverse (fun kv => option_map (pair (fst kv)) (shown_value fuel h (snd kv))) (filter (fun kv => negb (not_acceptable (fst kv))) d) = Some (map (fun nv => (fst nv, show (snd nv))) a)).
    { assert (D : forall m x, In (m, x) a -> (depth x < depth (VObj c a))%nat) by apply depth_attr.
      revert H2 D. generalize (depth (VObj c a)) Hn Hf. clear -IH. intros k Hn Hf. induction 1 as [|m r d a Hm Hs IHs|m r v d a Hm Hr Hs IHs]; intros D; [reflexivity| |].
      - cbn [filter fst]. rewrite (proj2 (not_acceptable_in m) Hm). cbn [negb]. apply IHs, D.
      - cbn [filter fst]. destruct (not_acceptable m) eqn:E; [apply not_acceptable_in in E; contradiction|]. cbn [negb traverse map fst snd].
        rewrite (IH v r fuel); [|pose proof (D m v (or_introl eq_refl)); lia|assumption|pose proof (D m v (or_introl eq_refl)); lia]. cbn [option_map].
        rewrite IHs; [reflexivity|]. intros m' x Hx. apply (D m'). right. exact Hx. }
    rewrite T. reflexivity.
Qed.

(** The recursion ends on every object graph, cyclic or not, whose attribute structure is a value; the
    recursion depth needed is the nesting depth of the value. *)
Theorem C48_any_graph : forall h r c a, graph_of h r (VObj c a) ->
  forall fuel, (depth (VObj c a) <= fuel)%nat -> _prettyprint fuel h r = Some (show (VObj c a)).
Proof.
  intros h r c a Hg fuel Hf. pose proof (shown_value_is h _ _ r fuel (Nat.lt_succ_diag_r _) Hg Hf) as H. unfold shown_value in H.
  inversion Hg as [r0 v0 H1 H2 H3|r0 rs l H1 H2|r0 c' d a' H1 H2]; subst; [destruct (H3 c a eq_refl)|]. rewrite H1 in H. exact H.
Qed.
Print Assumptions C48_any_graph.

(** ** The graphs the constructors build *)
Definition agrees (lo : nat) (h h2 : heap) : Prop := forall i, (lo <= i < List.length h)%nat -> nth_error h2 i = nth_error h i.
Lemma agrees_app lo h e h2 : agrees lo (h ++ e) h2 -> agrees lo h h2.
Proof. intros H i Hi. rewrite H by (rewrite app_length; lia). apply nth_error_app1. lia. Qed.
Lemma agrees_lo lo lo' h h2 : (lo <= lo')%nat -> agrees lo h h2 -> agrees lo' h h2.
Proof. intros Hl H i Hi. apply H. lia. Qed.
Lemma set_cell_length r c h : (r < List.length h)%nat -> List.length (set_cell r c h) = List.length h.
Proof. intros H. unfold set_cell. rewrite app_length, firstn_length. cbn [List.length]. rewrite skipn_length. lia. Qed.
Lemma set_cell_nth r c h i : (r < List.length h)%nat -> nth_error (set_cell r c h) i = if (i =? r)%nat then Some c else nth_error h i.
Proof.
  intros H. unfold set_cell. assert (L : List.length (firstn r h) = r) by (rewrite firstn_length; lia).
  destruct (Nat.eqb_spec i r) as [->|N]; [rewrite nth_error_app2, L, Nat.sub_diag by lia; reflexivity|].
  destruct (Nat.lt_ge_cases i r).
  - rewrite nth_error_app1 by lia. rewrite nth_firstn, (proj2 (Nat.ltb_lt _ _)) by assumption. reflexivity.
  - rewrite nth_error_app2, L by lia. replace (i - r)%nat with (S (i - S r)) by lia. cbn [nth_error].
    rewrite <- (firstn_skipn (S r) h) at 2. rewrite nth_error_app2 by (rewrite firstn_length; lia). rewrite firstn_length. f_equal. lia.
Qed.

Definition build_attrs (r : ref) (root : ref) := fix go (a : attrs) (h : heap) : heap * list (string * ref) :=
  match a with
  | [] => (h, [])
  | (n, x) :: a' => let '(h1, r1) := build x r (Some root) h in let '(h2, d2) := go a' h1 in (h2, (n, r1) :: d2)
  end.
Definition build_elems (parent : ref) (root : option ref) := fix go (l : list pyval) (h : heap) : heap * list ref :=
  match l with
  | [] => (h, [])
  | x :: l' => let '(h1, r1) := build x parent root h in let '(h2, rs) := go l' h1 in (h2, r1 :: rs)
  end.
Lemma build_obj cls a parent root h : build (VObj cls a) parent root h =
  let r := List.length h in
  let root' := match root with Some x => x | None => r end in
  let '(h', d) := build_attrs r root' a (h ++ [CObj cls []; CStream]) in
  (set_cell r (CObj cls (("_io", S r) :: ("_parent", parent) :: ("_root", root') :: d)) h', r).
Proof. reflexivity. Qed.
Lemma build_list l parent root h : build (VList l) parent root h =
  let '(h', rs) := build_elems parent root l h in (h' ++ [CList rs], List.length h').
Proof. reflexivity. Qed.

Definition built (v : pyval) : Prop := forall parent root h h' r, build v parent root h = (h', r) ->
  (exists e, h' = h ++ e) /\ (List.length h <= r < List.length h')%nat /\ forall h2, agrees (List.length h) h' h2 -> graph_of h2 r v.

Lemma build_is n : forall v, (depth v < n)%nat -> clean v = true -> built v.
Proof.
  induction n as [|n IH]; intros v Hn Hc parent root h h' r E; [lia|].
  assert (P : (forall l, v <> VList l) -> (forall c a, v <> VObj c a) -> (h ++ [CPlain v], List.length h) = (h', r) ->
     (exists e, h' = h ++ e) /\ (List.length h <= r < List.length h')%nat /\ forall h2, agrees (List.length h) h' h2 -> graph_of h2 r v).
  { intros H1 H2 H3. assert (h' = h ++ [CPlain v]) as -> by congruence. assert (r = List.length h) as -> by congruence.
    split; [eexists; reflexivity|]. split; [rewrite app_length; cbn; lia|]. intros h2 Ha. apply graph_plain; [|assumption..].
    rewrite Ha by (rewrite app_length; cbn; lia). rewrite nth_error_app2, Nat.sub_diag by lia. reflexivity. }
  destruct v as [|z|bo|l|s|ec en ez|l|cls a]; try (apply P; [intros; discriminate..|exact E]); clear P.
  - rewrite build_list in E. destruct (build_elems parent root l h) as [h1 rs] eqn:E1. assert (h' = h1 ++ [CList rs]) as -> by congruence. assert (r = List.length h1) as -> by congruence. clear E.
    assert (D : forall x, In x l -> (depth x < n)%nat) by (intros x Hx; pose proof (depth_elem l x Hx); lia). clear Hn.
    rewrite clean_list in Hc.
    assert (G : (exists e, h1 = h ++ e) /\ forall h2, agrees (List.length h) h1 h2 -> graph_elems h2 rs l).
    { revert h h1 rs E1 D Hc. induction l as [|x l IHl]; intros h h1 rs E1 D Hc.
      - cbn [build_elems] in E1. assert (h1 = h) as -> by congruence. assert (rs = []) as -> by congruence. split; [exists []; symmetry; apply app_nil_r|constructor].
      - cbn [build_elems] in E1. destruct (build x parent root h) as [ha ra] eqn:Ea. fold (build_elems parent root) in E1. destruct (build_elems parent root l ha) as [hb rb] eqn:Eb.
        assert (h1 = hb) as -> by congruence. assert (rs = ra :: rb) as -> by congruence. cbn [forallb] in Hc. apply andb_true_iff in Hc as [Hx Hl].
        destruct (IH x (D x (or_introl eq_refl)) Hx _ _ _ _ _ Ea) as [[e1 ->] [L1 G1]].
        destruct (IHl _ _ _ Eb (fun y Hy => D y (or_intror Hy)) Hl) as [[e2 ->] G2]. split; [exists (e1 ++ e2); rewrite app_assoc; reflexivity|].
        intros h2 Ha. constructor.
        + apply G1. eapply agrees_app, Ha.
        + apply G2. eapply agrees_lo, Ha. rewrite app_length. lia. }
    destruct G as [[e ->] G]. split; [exists (e ++ [CList rs]); rewrite app_assoc; reflexivity|]. split; [rewrite !app_length; cbn; lia|].
    intros h2 Ha. apply graph_list with (rs := rs).
    + rewrite Ha by (rewrite !app_length; cbn; lia). rewrite nth_error_app2, Nat.sub_diag by lia. reflexivity.
    + apply G. eapply agrees_app, Ha.
  - rewrite build_obj in E. cbv zeta in E. set (r0 := List.length h) in *. set (root' := match root with Some x => x | None => r0 end) in *. clearbody root'.
    destruct (build_attrs r0 root' a (h ++ [CObj cls []; CStream])) as [h1 d] eqn:E1.
    set (c0 := CObj cls _) in E. assert (h' = set_cell r0 c0 h1) as -> by congruence. assert (r = r0) as -> by congruence. clear E.
    assert (D : forall m x, In (m, x) a -> (depth x < n)%nat) by (intros m x Hx; pose proof (depth_attr cls a m x Hx); lia). clear Hn.
    rewrite clean_obj in Hc. apply andb_true_iff in Hc as [_ Hc].
    assert (G : forall h, (List.length h >= 0)%nat -> forall h1 d, build_attrs r0 root' a h = (h1, d) -> (exists e, h1 = h ++ e) /\ forall h2, agrees (List.length h) h1 h2 -> graph_dict h2 d a).
    { clear h1 d E1 c0. clearbody r0. clear h. revert D Hc. induction a as [|[m x] a IHa]; intros D Hc h _ h1 d E1.
      - cbn [build_attrs] in E1. assert (h1 = h) as -> by congruence. assert (d = []) as -> by congruence. split; [exists []; symmetry; apply app_nil_r|constructor].
      - cbn [build_attrs] in E1. destruct (build x r0 (Some root') h) as [ha ra] eqn:Ea. fold (build_attrs r0 root') in E1. destruct (build_attrs r0 root' a ha) as [hb db] eqn:Eb.
        assert (h1 = hb) as -> by congruence. assert (d = (m, ra) :: db) as -> by congruence. cbn [forallb fst snd] in Hc. apply andb_true_iff in Hc as [Hx Hl]. apply andb_true_iff in Hx as [Hm Hx].
        destruct (IH x (D m x (or_introl eq_refl)) Hx _ _ _ _ _ Ea) as [[e1 ->] [L1 G1]].
        destruct (IHa (fun m' y Hy => D m' y (or_intror Hy)) Hl (h ++ e1) ltac:(lia) _ _ Eb) as [[e2 ->] G2]. split; [exists (e1 ++ e2); rewrite app_assoc; reflexivity|].
        intros h2 Ha. apply dict_attr.
        + intros Hin. apply not_acceptable_in in Hin. unfold not_acceptable in Hin. fold bookkeeping in Hin. rewrite Hin in Hm. discriminate.
        + apply G1. eapply agrees_app, Ha.
        + apply G2. eapply agrees_lo, Ha. rewrite app_length. lia. }
    destruct (G _ ltac:(lia) _ _ E1) as [[e ->] G']. clear G E1.
    assert (L : (r0 < List.length ((h ++ [CObj cls []; CStream]) ++ e))%nat) by (rewrite !app_length; cbn; fold r0; lia).
    split.
    { exists (c0 :: CStream :: e). unfold set_cell. rewrite <- app_assoc. rewrite firstn_app, firstn_all2 by (fold r0; lia). fold r0. rewrite Nat.sub_diag. cbn [firstn]. rewrite app_nil_r.
      rewrite skipn_app, skipn_all2 by (fold r0; lia). fold r0. replace (S r0 - r0)%nat with 1%nat by lia. reflexivity. }
    split; [rewrite set_cell_length by exact L; lia|].
    intros h2 Ha. apply graph_obj with (d := ("_io", S r0) :: ("_parent", parent) :: ("_root", root') :: d).
    + rewrite Ha by (rewrite set_cell_length by exact L; lia). rewrite set_cell_nth, Nat.eqb_refl by exact L. reflexivity.
    + do 3 (apply dict_bookkeeping; [cbn; tauto|]). apply G'. intros i Hi.
      rewrite Ha; [rewrite set_cell_nth by exact L|rewrite set_cell_length by exact L; rewrite app_length in Hi; fold r0 in Hi; lia].
      destruct (Nat.eqb_spec i r0); [|reflexivity]. rewrite app_length in Hi. cbn in Hi. fold r0 in Hi. lia.
Qed.

Lemma graph_is v : clean v = true -> graph_of (fst (graph v)) (snd (graph v)) v.
Proof.
  intros Hc. unfold graph. destruct (build v O None [CPlain VNone]) as [h r] eqn:E. cbn [fst snd].
  destruct (build_is _ v (Nat.lt_succ_diag_r _) Hc _ _ _ _ _ E) as [_ [_ G]]. apply G. intros i _. reflexivity.
Qed.
Lemma build_size n : forall v, (depth v < n)%nat -> forall parent root h, (List.length h + depth v <= List.length (fst (build v parent root h)))%nat.
Proof.
  induction n as [|n IH]; intros v Hn parent root h; [lia|].
  destruct v as [|z|bo|l|s|ec en ez|l|cls a]; try (cbn [build fst depth]; rewrite app_length; lia).
  - rewrite build_list. destruct (build_elems parent root l h) as [h1 rs] eqn:E1. cbn [fst]. rewrite app_length. cbn [List.length].
    assert (D : forall x, In x l -> (depth x < n)%nat) by (intros x Hx; pose proof (depth_elem l x Hx); lia). clear Hn. cbn [depth].
    enough (List.length h + (fix go (l : list pyval) := match l with [] => O | x :: l' => Nat.max (depth x) (go l') end) l <= List.length h1)%nat by lia.
    revert h h1 rs E1 D. induction l as [|x l IHl]; intros h h1 rs E1 D; cbn [build_elems] in E1.
    + assert (h1 = h) as -> by congruence. lia.
    + pose proof (IH x (D x (or_introl eq_refl)) parent root h) as Hx. destruct (build x parent root h) as [ha ra]. fold (build_elems parent root) in E1.
      destruct (build_elems parent root l ha) as [hb rb] eqn:Eb. assert (h1 = hb) as -> by congruence. specialize (IHl _ _ _ Eb (fun y Hy => D y (or_intror Hy))). cbn [fst] in Hx. lia.
  - rewrite build_obj. cbv zeta. set (r0 := List.length h) in *. set (root' := match root with Some x => x | None => r0 end) in *. clearbody root'.
    destruct (build_attrs r0 root' a (h ++ [CObj cls []; CStream])) as [h1 d] eqn:E1. cbn [fst].
    assert (D : forall m x, In (m, x) a -> (depth x < n)%nat) by (intros m x Hx; pose proof (depth_attr cls a m x Hx); lia). clear Hn. cbn [depth].
    assert (G : forall h h1 d, build_attrs r0 root' a h = (h1, d) -> (List.length h + (fix go (a : attrs) := match a with [] => O | (_, x) :: a' => Nat.max (depth x) (go a') end) a <= List.length h1)%nat).
    { clear E1 h1 d. revert D. clear -IH. induction a as [|[m x] a IHa]; intros D hh h1 d E1; cbn [build_attrs] in E1.
      - assert (h1 = hh) as -> by congruence. lia.
      - pose proof (IH x (D m x (or_introl eq_refl)) r0 (Some root') hh) as Hx. destruct (build x r0 (Some root') hh) as [ha ra]. fold (build_attrs r0 root') in E1.
        destruct (build_attrs r0 root' a ha) as [hb rb] eqn:Eb. assert (h1 = hb) as -> by congruence. specialize (IHa (fun m' y Hy => D m' y (or_intror Hy)) _ _ _ Eb). cbn [fst] in Hx. lia. }
    specialize (G _ _ _ E1). rewrite app_length in G. cbn [List.length] in G. fold r0 in G. rewrite set_cell_length by lia. lia.
Qed.

(** * C48 for the objects parsers build *)
(** what the shown dictionary must not contain, at any depth *)
Fixpoint no_bookkeeping (d : shown) : Prop :=
  match d with
  | SDict l => (fix go (l : list (string * shown)) : Prop := match l with [] => True | (k, x) :: l' => ~ In k bookkeeping /\ no_bookkeeping x /\ go l' end) l
  | SList l => (fix go (l : list shown) : Prop := match l with [] => True | x :: l' => no_bookkeeping x /\ go l' end) l
  | SPlain _ => True
  | SRef _ => False
  end.
(** every key of every dictionary occurs once *)
Fixpoint keys_once (d : shown) : Prop :=
  match d with
  | SDict l => NoDup (map fst l) /\ (fix go (l : list (string * shown)) : Prop := match l with [] => True | (_, x) :: l' => keys_once x /\ go l' end) l
  | SList l => (fix go (l : list shown) : Prop := match l with [] => True | x :: l' => keys_once x /\ go l' end) l
  | _ => True
  end.
Lemma distinct_nodup l : distinct l = true -> NoDup l.
Proof.
  induction l as [|x l IH]; [constructor|]. cbn [distinct]. intros H. apply andb_true_iff in H as [H1 H2]. constructor; [|auto].
  intros Hin. apply negb_true_iff in H1. rewrite (proj2 (existsb_exists _ _)) in H1; [discriminate|]. exists x. split; [exact Hin|apply String.eqb_refl].
Qed.
Lemma show_proper n : forall v, (depth v < n)%nat -> clean v = true -> no_bookkeeping (show v) /\ keys_once (show v).
Proof.
  induction n as [|n IH]; intros v Hn Hc; [lia|]. destruct v as [|z|bo|l|s|ec en ez|l|cls a]; try (split; exact I).
  - assert (D : forall x, In x l -> (depth x < n)%nat) by (intros x Hx; pose proof (depth_elem l x Hx); lia). clear Hn. rewrite clean_list in Hc. cbn [show no_bookkeeping keys_once].
    induction l as [|x l IHl]; [split; exact I|]. cbn [forallb] in Hc. apply andb_true_iff in Hc as [Hx Hl]. cbn [map].
    destruct (IH x (D x (or_introl eq_refl)) Hx), (IHl Hl (fun y Hy => D y (or_intror Hy))). tauto.
  - assert (D : forall m x, In (m, x) a -> (depth x < n)%nat) by (intros m x Hx; pose proof (depth_attr cls a m x Hx); lia). clear Hn.
    rewrite clean_obj in Hc. apply andb_true_iff in Hc as [Hd Hc]. rewrite show_obj. cbn [no_bookkeeping keys_once].
    rewrite map_map. cbn [fst]. assert (Hd' : NoDup (map (fun x : string * pyval => fst x) a)) by (apply distinct_nodup, Hd). clear Hd.
    enough ((fix go (l : list (string * shown)) : Prop := match l with [] => True | (k, x) :: l' => ~ In k bookkeeping /\ no_bookkeeping x /\ go l' end) (map (fun nv => (fst nv, show (snd nv))) a) /\
      (fix go (l : list (string * shown)) : Prop := match l with [] => True | (_, x) :: l' => keys_once x /\ go l' end) (map (fun nv => (fst nv, show (snd nv))) a)) by tauto.
    clear Hd'. induction a as [|[m x] a IHa]; [split; exact I|]. cbn [forallb fst snd map] in *. apply andb_true_iff in Hc as [Hx Hl]. apply andb_true_iff in Hx as [Hm Hx].
    destruct (IH x (D m x (or_introl eq_refl)) Hx), (IHa Hl (fun m' y Hy => D m' y (or_intror Hy))). repeat split; try tauto.
    intros Hin. apply not_acceptable_in in Hin. unfold not_acceptable in Hin. fold bookkeeping in Hin. rewrite Hin in Hm. discriminate.
Qed.

Lemma prettyprint_is v : is_obj v = true -> clean v = true -> prettyprint v = Some (show v).
Proof.
  intros Ho Hc. unfold prettyprint. pose proof (graph_is v Hc) as G. pose proof (build_size _ v (Nat.lt_succ_diag_r _) O None [CPlain VNone]) as L.
  fold (graph v) in L. destruct (graph v) as [h r]. cbn [fst snd] in *. destruct v as [|z|bo|l|s|ec en ez|l|cls a]; try discriminate.
  apply C48_any_graph; [exact G|]. cbn [List.length] in L. lia.
Qed.

(** Every object every protocol class can parse is shown completely: the nested dictionary of its
    attributes, without bookkeeping attributes and without repeated keys; showing it always terminates. *)
Theorem C48_parsed_objects : Forall (fun class => forall rt b v, from_bytes (snd class rt) b = Ok v ->
    prettyprint v = Some (show v) /\ no_bookkeeping (show v) /\ keys_once (show v)) all_parsers.
Proof.
  pose proof all_parsers_clean as H. rewrite Forall_forall in *. intros class Hin rt b v E. destruct (H class Hin rt b v E) as [H1 H2].
  split; [apply prettyprint_is; assumption|]. exact (show_proper _ v (Nat.lt_succ_diag_r _) H2).
Qed.
Print Assumptions C48_parsed_objects.
(** a message with nested objects; its graph is cyclic ([_root] of the outer object is itself, [_parent] of
    the inner one is the outer one) *)
Example C48_case :
  let v := VObj "Outer" [("id", VInt 7); ("data", VObj "Inner" [("x", VBool true)]); ("l", VList [VInt 1; VObj "Item" []])] in
  nth_error (fst (graph v)) (snd (graph v)) = Some (CObj "Outer" [("_io", 2%nat); ("_parent", 0%nat); ("_root", 1%nat); ("id", 3%nat); ("data", 4%nat); ("l", 10%nat)]) /\
  snd (graph v) = 1%nat /\
  nth_error (fst (graph v)) 4 = Some (CObj "Inner" [("_io", 5%nat); ("_parent", 1%nat); ("_root", 1%nat); ("x", 6%nat)]) /\
  prettyprint v = Some (SDict [("id", SPlain (VInt 7)); ("data", SDict [("x", SPlain (VBool true))]); ("l", SList [SPlain (VInt 1); SDict []])]).
Proof. vm_compute. repeat split; reflexivity. Qed.
Example C48_parsed_case : exists v, from_bytes (p_HyteraRadioNetworkProtocol V010) (B [0x7e; 4; 0; 0; 0x20; 0x10; 0; 1; 0; 28; 0; 0; 0x11; 0; 0x80; 0; 9; 10; 0; 0; 1; 0; 0; 0; 0; 60; 0x55; 3]) = Ok v /\
  exists d, prettyprint v = Some (SDict d) /\ List.length d = 10%nat.
Proof. eexists. split; [vm_compute; reflexivity|]. eexists. split; [vm_compute; reflexivity|]. reflexivity. Qed.

(** * C49 *)
Definition ipsc_tool : tool := {| t_class := "IpSiteConnectProtocol"; t_parser := p_IpSiteConnectProtocol; t_ipsc := true |}.

Lemma tools_clean : Forall (fun nt => forall rt b v, from_bytes (t_parser (snd nt) rt) b = Ok v -> is_obj v = true /\ clean v = true) tools.
Proof.
  pose proof all_parsers_clean as H. rewrite Forall_forall in H.
  unfold tools, plain_tool. repeat (apply Forall_cons; [intros rt b v E; cbn [snd t_parser] in E; split; [refine (from_bytes_yields _ OV b v _ E); auto with isobj|refine (from_bytes_yields _ CV b v _ E); auto with clean]|]). apply Forall_nil.
Qed.

(** One argument of a tool other than debug-hytera-ipsc: the decoded object is shown, or the exception of
    the hexadecimal decoding or of the parser is raised and nothing is printed. *)
Theorem C49_message : Forall (fun nt => t_ipsc (snd nt) = false -> forall rt s,
  show_message rt (snd nt) s = match rbind (fromhex s) (from_bytes (t_parser (snd nt) rt)) with
                               | Ok v => ([Pretty (show v)], None)
                               | Err e => ([], Some e)
                               end) tools.
Proof.
  pose proof tools_clean as H. rewrite Forall_forall in *. intros nt Hin Hi rt s. specialize (H nt Hin rt). unfold show_message. rewrite Hi.
  destruct (fromhex s) as [b|e]; [|reflexivity]. cbn [rbind]. unfold open_object. specialize (H b). unfold from_bytes in *.
  destruct (t_parser (snd nt) rt (stream_of b)) as [[v|e] io]; cbn [fst] in *; [|reflexivity]. destruct (H v eq_refl) as [Ho Hc].
  destruct v as [|z|bo|l|s'|ec en ez|l|cls a]; try discriminate. cbn [l_attrs].
  rewrite prettyprint_is; [|reflexivity|]; [rewrite !show_obj; reflexivity|]. rewrite clean_obj in *. exact Hc.
Qed.
Print Assumptions C49_message.

(** One argument of debug-hytera-ipsc: as above, with the four derived attributes evaluated before, and
    followed by the line with the 66 digits of the byte-swapped payload unless the slot type is sync. *)
Definition ipsc_memo (b : bytes) : attrs := [
  ("_m_source_radio_id", VInt (ubits b (8 * 68) 8 + 256 * ubits b (8 * 69) 8 + 65536 * ubits b (8 * 70) 8));
  ("_m_destination_radio_id", VInt (ubits b (8 * 64) 8 + 256 * ubits b (8 * 65) 8 + 65536 * ubits b (8 * 66) 8));
  ("_m_color_code", VInt (ubits b (8 * 20 + 4) 4));
  ("_m_is_wakeup", VBool ((ubits b (8 * 62) 8 =? 2) || (ubits b (8 * 62) 8 =? 0x0c) || (ubits b (8 * 18) 16 =? 0xdddd)))].
Theorem C49_ipsc_message : forall rt s,
  match rbind (fromhex s) (fun b => rmap (pair b) (from_bytes (p_IpSiteConnectProtocol rt) b)) with
  | Err e => show_message rt ipsc_tool s = ([], Some e)
  | Ok (b, v) => exists a digits, v = VObj "IpSiteConnectProtocol" a /\
      show_message rt ipsc_tool s =
        (Pretty (show (VObj "IpSiteConnectProtocol" (a ++ ipsc_memo b))) ::
           (if ubits b (8 * 18) 16 =? 0xeeee then [] else [DmrData digits]), None) /\
      List.length digits = 66%nat /\ fromhex digits = fst (byteswap_bytes (slice b 26 34) [])
  end.
Proof.
  intros rt s. unfold show_message, ipsc_tool. cbn [t_ipsc t_parser t_class]. destruct (fromhex s) as [b|e]; [|reflexivity]. cbn [rbind].
  pose proof (C35_ipsc_decoding rt b) as D. unfold open_object. unfold from_bytes in *.
  destruct (p_IpSiteConnectProtocol rt (stream_of b)) as [[v|e] io] eqn:Ep; cbn [fst] in D |- *; [|reflexivity].
  cbn [rmap rbind]. destruct (blen b <? 4); [discriminate|]. destruct (negb _); [discriminate|]. destruct (Z.ltb_spec (blen b) 72) as [|L]; [discriminate|].
  set (x := if 72 <? blen b then _ else _) in D. assert (Hx : x = [] \/ exists y, x = [("extra_data", VBytes y)]) by (subst x; destruct (72 <? blen b); eauto). clearbody x.
  assert (v = VObj "IpSiteConnectProtocol" (ipsc_attrs b ++ x)) as -> by congruence. clear D Ep.
  destruct (C46_byteswap (slice b 26 34) []) as [frame [F1 [F2 _]]].
  assert (Hl : List.length (slice b 26 34) = 34%nat). { Transparent slice. unfold slice. Opaque slice. unfold blen in L. rewrite firstn_length, skipn_length. lia. }
  exists (ipsc_attrs b ++ x), (tohex frame). split; [reflexivity|]. destruct (C50_roundtrip frame) as [R1 R2]. split; [|rewrite R1, R2, F2, Hl; split; [reflexivity|symmetry; exact F1]].
  assert (K : rbind (touch IpSiteConnectProtocol_source_radio_id {| l_attrs := ipsc_attrs b ++ x; l_io := io |}) (fun o1 =>
               rbind (touch IpSiteConnectProtocol_destination_radio_id o1) (fun o2 =>
               rbind (touch IpSiteConnectProtocol_color_code o2) (touch IpSiteConnectProtocol_is_wakeup))) = Ok {| l_attrs := (ipsc_attrs b ++ x) ++ ipsc_memo b; l_io := io |}).
  { pose proof (shift_le b 67 ltac:(lia)) as S1. pose proof (shift_le b 63 ltac:(lia)) as S2. change (67 + 2) with 69 in S1. change (67 + 1) with 68 in S1. change (67 + 3) with 70 in S1.
    change (63 + 2) with 65 in S2. change (63 + 1) with 64 in S2. change (63 + 3) with 66 in S2.
    assert (S3 : Z.land (le16 b 20) 15 = ubits b (8 * 20 + 4) 4).
    { rewrite land15. unfold le16. rewrite Z.add_mod, Z.mul_mod by lia. change (256 mod 16) with 0. rewrite Z.mul_0_l, Z.mod_0_l, Z.add_0_r, Z.mod_mod, low_nibble by lia. reflexivity. }
    assert (S4 : (eq_member IpSiteConnectProtocol_CallTypes "wakeup_call_2" (resolve_enum IpSiteConnectProtocol_CallTypes (ubits b (8 * 62) 8))
      || eq_member IpSiteConnectProtocol_CallTypes "wakeup_call_c" (resolve_enum IpSiteConnectProtocol_CallTypes (ubits b (8 * 62) 8))
      || eq_member IpSiteConnectProtocol_SlotTypes "slot_type_wakeup_request" (resolve_enum IpSiteConnectProtocol_SlotTypes (ubits b (8 * 18) 16)))
      = ((ubits b (8 * 62) 8 =? 2) || (ubits b (8 * 62) 8 =? 0x0c) || (ubits b (8 * 18) 16 =? 0xdddd))).
    { rewrite (eq_member_code IpSiteConnectProtocol_CallTypes "wakeup_call_2" 2), (eq_member_code IpSiteConnectProtocol_CallTypes "wakeup_call_c" 12), (eq_member_code IpSiteConnectProtocol_SlotTypes "slot_type_wakeup_request" 0xdddd) by reflexivity. reflexivity. }
    unfold ipsc_memo. rewrite <- S1, <- S2, <- S3, <- S4. clear -Hx.
    assert (T : forall g n v a, lookup ("_m_" ++ n) a = None -> g a io = (Ok v, io) -> touch (memo n g) {| l_attrs := a; l_io := io |} = Ok {| l_attrs := a ++ [(("_m_" ++ n)%string, v)]; l_io := io |}).
    { intros g n v a H1 H2. unfold touch, memo. cbn [l_attrs l_io]. rewrite H1, H2. reflexivity. }
    unfold IpSiteConnectProtocol_source_radio_id, IpSiteConnectProtocol_destination_radio_id, IpSiteConnectProtocol_color_code, IpSiteConnectProtocol_is_wakeup.
    rewrite (T _ "source_radio_id" (VInt (Z.shiftr (le16 b 67 + 65536 * le16 b 69) 8))); [cbn [rbind]|destruct Hx as [->|[y ->]]; reflexivity..].
    rewrite (T _ "destination_radio_id" (VInt (Z.shiftr (le16 b 63 + 65536 * le16 b 65) 8))); [cbn [rbind]|destruct Hx as [->|[y ->]]; reflexivity..].
    rewrite (T _ "color_code" (VInt (Z.land (le16 b 20) 15))); [cbn [rbind]|destruct Hx as [->|[y ->]]; reflexivity..].
    erewrite (T _ "is_wakeup"); [|destruct Hx as [->|[y ->]]; reflexivity..]. rewrite <- !app_assoc. reflexivity. }
  rewrite K. clear K. cbn [l_attrs].
  assert (C : clean (VObj "IpSiteConnectProtocol" ((ipsc_attrs b ++ x) ++ ipsc_memo b)) = true).
  { rewrite clean_obj. unfold ipsc_attrs, ipsc_memo. destruct Hx as [->|[y ->]]; cbn [app map fst snd forallb]; rewrite !clean_enum; reflexivity. }
  rewrite (prettyprint_is (VObj "IpSiteConnectProtocol" ((ipsc_attrs b ++ x) ++ ipsc_memo b)) eq_refl C).
  assert (L1 : lookup "slot_type" ((ipsc_attrs b ++ x) ++ ipsc_memo b) = Some (resolve_enum IpSiteConnectProtocol_SlotTypes (ubits b (8 * 18) 16))) by reflexivity.
  assert (L2 : lookup "ipsc_payload" ((ipsc_attrs b ++ x) ++ ipsc_memo b) = Some (VBytes (slice b 26 34))) by reflexivity.
  rewrite L1, L2, (eq_member_code IpSiteConnectProtocol_SlotTypes "slot_type_sync" 0xeeee), F1 by reflexivity.
  destruct (_ =? 0xeeee); reflexivity.
Qed.
Print Assumptions C49_ipsc_message.

(** Which console script (pyproject.toml, [project.scripts]) decodes which protocol. *)
Definition scripts : list (string * (runtime -> M pyval)) := [
  ("debug-homebrew", p_Homebrew2015); ("debug-mmdvm", p_Mmdvm2020);
  ("debug-motorola-ars", p_AutomaticRegistrationService); ("debug-motorola-tmp", p_MotTextMessageProtocol);
  ("debug-hytera-rrs", p_RadioRegistrationService); ("debug-hytera-tmp", p_TextMessageProtocol); ("debug-hytera-rcp", p_RadioControlProtocol);
  ("debug-hytera-dds", p_DataDeliveryStates); ("debug-hytera-hdap", p_HyteraDmrApplicationProtocol); ("debug-hytera-hrnp", p_HyteraRadioNetworkProtocol);
  ("debug-hytera-hstrp", p_HyteraSimpleTransportReliabilityProtocol); ("debug-hytera-lp", p_LocationProtocol);
  ("debug-hytera-dtp", p_DataTransmitProtocol); ("debug-hytera-tp", p_TelemetryProtocol)].
Theorem C49_scripts : Forall (fun np => exists t, find (fun nt => String.eqb (fst nt) (fst np)) tools = Some (fst np, t) /\
    forall rt s, show_message rt t s = match rbind (fromhex s) (from_bytes (snd np rt)) with
                                       | Ok v => ([Pretty (show v)], None)
                                       | Err e => ([], Some e)
                                       end) scripts /\
  find (fun nt => String.eqb (fst nt) "debug-hytera-ipsc") tools = Some ("debug-hytera-ipsc", ipsc_tool) /\
  List.length tools = S (List.length scripts) /\ NoDup (map fst tools).
Proof.
  split; [|split; [reflexivity|split; [reflexivity|]]].
  - pose proof C49_message as H. rewrite Forall_forall in H. unfold scripts.
    repeat (apply Forall_cons; [|]); [..|apply Forall_nil];
      (eexists; split; [reflexivity|]; intros rt s; cbn [fst snd];
       match goal with |- show_message _ ?t _ = match rbind _ (from_bytes ?p) with _ => _ end =>
         refine (H (_, t) _ eq_refl rt s) end; unfold tools; cbn [In]; auto 20).
  - unfold tools. cbn [map fst]. repeat (constructor; [cbn [In]; intuition discriminate|]). constructor.
Qed.
Print Assumptions C49_scripts.

(** The whole run: the arguments are processed in order, each on its own; the first failing one ends the
    run with its exception after everything before has been printed. *)
Definition succeeds (rt : runtime) (t : tool) (s : pystr) : Prop := snd (show_message rt t s) = None.
Definition printed (rt : runtime) (t : tool) (args : list pystr) : list line := List.concat (map (fun s => fst (show_message rt t s)) args).
Definition used (arguments : option (list pystr)) (argv : list pystr) : list pystr :=
  match arguments with Some (s :: l) => s :: l | _ => argv end.
Theorem C49_run : forall rt t arguments argv, used arguments argv <> [] -> (forall s, In s (used arguments argv) -> hd_error s <> Some 45 (* '-' *)) ->
  (Forall (succeeds rt t) (used arguments argv) -> debug_impl rt t arguments argv = (printed rt t (used arguments argv), Done)) /\
  (forall before s after e, used arguments argv = before ++ s :: after -> Forall (succeeds rt t) before -> snd (show_message rt t s) = Some e ->
     debug_impl rt t arguments argv = (printed rt t (before ++ [s]), Raised e)).
Proof.
  intros rt t arguments argv Hne Hd.
  assert (E : debug_impl rt t arguments argv = show_messages rt t (used arguments argv)).
  { assert (X : existsb starts_with_dash (used arguments argv) = false).
    { destruct (existsb _ _) eqn:Ex; [|reflexivity]. apply existsb_exists in Ex as [s [H1 H2]]. specialize (Hd s H1). destruct s as [|c s]; [discriminate|]. cbn in H2, Hd. exfalso. apply Hd. f_equal. lia. }
    unfold debug_impl. destruct arguments as [[|a0 l]|]; cbn [used] in *; cbv zeta; rewrite X; try reflexivity; destruct argv; try reflexivity; contradiction. }
  rewrite E. clear E Hne Hd. generalize (used arguments argv) as args. intros args. split.
  - induction 1 as [|s args Hs _ IH]; [reflexivity|]. cbn [show_messages]. unfold succeeds in Hs. unfold printed. cbn [map List.concat]. destruct (show_message rt t s) as [out [e|]]; [discriminate|].
    rewrite IH. reflexivity.
  - intros before s after e -> Hb He. induction Hb as [|s0 before Hs _ IH].
    + cbn [app show_messages]. unfold printed. cbn [map List.concat]. destruct (show_message rt t s) as [out [e'|]]; [|discriminate]. cbn [snd fst] in *. rewrite app_nil_r. congruence.
    + cbn [app show_messages]. unfold succeeds in Hs. unfold printed. cbn [map List.concat app]. destruct (show_message rt t s0) as [out [e'|]]; [discriminate|]. rewrite IH. reflexivity.
Qed.
Print Assumptions C49_run.
(** no argument at all is argparse's usage error; nothing is printed *)
Theorem C49_no_arguments : forall rt t arguments, used arguments [] = [] -> debug_impl rt t arguments [] = ([], UsageError).
Proof. intros rt t [[|s l]|] H; [reflexivity|discriminate|reflexivity]. Qed.
Print Assumptions C49_no_arguments.
Example C49_case :
  let rrs := lit "0080 0009 0a000001 00 0000003c" in
  let ipsc := (lit "01025a5a090000000100000000000000" ++ lit "1111" ++ lit "3333" ++ lit "1511000000" ++ lit "00" ++ List.concat (List.repeat (lit "aabb") 17) ++ lit "0000 01 00382300 00392300 00") in
  debug_impl V010 (plain_tool "RadioRegistrationService" p_RadioRegistrationService) None [rrs; lit "00"; rrs] =
    (printed V010 (plain_tool "RadioRegistrationService" p_RadioRegistrationService) [rrs], Raised EOFError) /\
  List.length (printed V010 (plain_tool "RadioRegistrationService" p_RadioRegistrationService) [rrs]) = 1%nat /\
  exists d, debug_impl V011 ipsc_tool (Some [ipsc]) [lit "zz"] = ([Pretty d; DmrData (List.concat (List.repeat (lit "bbaa") 16) ++ lit "bb")], Done).
Proof. split; [vm_compute; reflexivity|]. split; [vm_compute; reflexivity|]. eexists. vm_compute. reflexivity. Qed.
