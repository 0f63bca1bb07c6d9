(** Enum lookups. *)
From Verif Require Import PyBase Spec RuntimeProofs.
Open Scope string_scope.
Open Scope list_scope.
Open Scope Z_scope.

Fixpoint nodup_z (l : list Z) : bool :=
  match l with [] => true | x :: l' => negb (existsb (Z.eqb x) l') && nodup_z l' end.
Fixpoint nodup_s (l : list string) : bool :=
  match l with [] => true | x :: l' => negb (existsb (String.eqb x) l') && nodup_s l' end.

(** No value and no name is declared twice. *)
Definition enum_wf (E : enumdef) : bool :=
  nodup_z (map fst (en_members E)) && nodup_s (map snd (en_members E)).

Lemma existsb_z_in x l : existsb (Z.eqb x) l = true <-> In x l.
Proof.
  rewrite existsb_exists. split.
  - intros [y [H1 H2]]. apply Z.eqb_eq in H2. now subst.
  - intros H. exists x. split; [assumption|apply Z.eqb_refl].
Qed.
Lemma existsb_s_in x l : existsb (String.eqb x) l = true <-> In x l.
Proof.
  rewrite existsb_exists. split.
  - intros [y [H1 H2]]. apply String.eqb_eq in H2. now subst.
  - intros H. exists x. split; [assumption|apply String.eqb_refl].
Qed.

Lemma en_find_in l z n : en_find l z = Some n -> In (z, n) l.
Proof.
  induction l as [|[c m] l IH]; cbn; [discriminate|].
  destruct (Z.eqb_spec z c) as [->|N]; [injection 1 as ->; auto|auto].
Qed.
Lemma en_find_none l z : en_find l z = None -> ~ In z (map fst l).
Proof.
  induction l as [|[c m] l IH]; cbn; [auto|].
  destruct (Z.eqb_spec z c) as [->|N]; [discriminate|].
  intros H [H1|H1]; [now subst|]. now apply IH.
Qed.
Lemma en_code_in l n c : en_code l n = Some c -> In (c, n) l.
Proof.
  induction l as [|[d m] l IH]; cbn; [discriminate|].
  destruct (String.eqb_spec n m) as [->|N]; [injection 1 as ->; auto|auto].
Qed.

Lemma nodup_fst_find l c n : nodup_z (map fst l) = true -> In (c, n) l -> en_find l c = Some n.
Proof.
  induction l as [|[d m] l IH]; cbn; [intros _ []|].
  intros H [E|Hin]; apply andb_true_iff in H as [H1 H2].
  - injection E as -> ->. now rewrite Z.eqb_refl.
  - destruct (Z.eqb_spec c d) as [->|N]; [|auto].
    exfalso. apply negb_true_iff in H1.
    assert (existsb (Z.eqb d) (map fst l) = true); [|congruence].
    apply existsb_z_in. change d with (fst (d, n)). now apply in_map.
Qed.
Lemma nodup_snd_inj (l : list (Z * string)) c d n : nodup_s (map snd l) = true -> In (c, n) l -> In (d, n) l -> c = d.
Proof.
  induction l as [|[e m] l IH]; cbn; [intros _ []|].
  intros H [E1|H1] [E2|H2]; apply andb_true_iff in H as [Ha Hb]; apply negb_true_iff in Ha.
  - congruence.
  - inversion E1; subst. exfalso.
    assert (existsb (String.eqb n) (map snd l) = true); [|congruence].
    apply existsb_s_in. change n with (snd (d, n)). now apply in_map.
  - inversion E2; subst. exfalso.
    assert (existsb (String.eqb n) (map snd l) = true); [|congruence].
    apply existsb_s_in. change n with (snd (c, n)). now apply in_map.
  - auto.
Qed.

(** [resolve_enum(E, z) == E.n] iff [z] is the declared value of [n]. *)
Lemma eq_member_code E n c z : enum_wf E = true -> en_code (en_members E) n = Some c ->
  eq_member E n (resolve_enum E z) = (z =? c).
Proof.
  unfold enum_wf. intros H Hc. apply andb_true_iff in H as [H1 H2].
  apply en_code_in in Hc. unfold resolve_enum.
  destruct (en_find (en_members E) z) as [m|] eqn:F.
  - apply en_find_in in F. cbn [eq_member]. rewrite String.eqb_refl. cbn [andb].
    destruct (Z.eqb_spec z c) as [->|N].

      assert (m = n). { apply (nodup_fst_find _ _ _ H1) in F. rewrite (nodup_fst_find _ _ _ H1 Hc) in F. congruence. }
      subst. apply String.eqb_refl.
    + apply String.eqb_neq. intros ->. apply N. eapply nodup_snd_inj; eauto.
  - cbn [eq_member]. symmetry. apply Z.eqb_neq. intros ->.
    rewrite (nodup_fst_find _ _ _ H1 Hc) in F. discriminate.
Qed.

(** the enum field value determines the wire number *)
Definition enum_wire (v : pyval) : option Z :=
  match v with VEnum _ _ z => Some z | VInt z => Some z | _ => None end.
Lemma resolve_enum_wire E z : enum_wire (resolve_enum E z) = Some z.
Proof. unfold resolve_enum. destruct (en_find _ _); reflexivity. Qed.

(** evaluate dispatch tests on a literal *)
Ltac eval_dispatch :=
  repeat match goal with
  | |- context [eq_member ?E ?n (resolve_enum ?E ?z)] => is_zlit z;
      let r := eval vm_compute in (eq_member E n (resolve_enum E z)) in
      change (eq_member E n (resolve_enum E z)) with r
  | |- context [select ?z ?t] => is_zlit z;
      let t' := eval hnf in t in
      let r := eval cbv [select Z.eqb Pos.eqb] in (select z t') in
      change (select z t) with r
  | |- context [Z.eqb ?x ?y] => is_zlit x; is_zlit y; let r := eval vm_compute in (Z.eqb x y) in change (Z.eqb x y) with r
  end; cbv iota; cbv beta.

(** all enum tests on [z] are false; [z] differs from the declared values *)
Ltac none_dispatch :=
  repeat match goal with
  | |- context [eq_member ?E ?n (resolve_enum ?E ?z)] =>
      let c := eval vm_compute in (en_code (en_members E) n) in
      match c with Some ?c' =>
        rewrite (eq_member_code E n c' z) by reflexivity
      end
  end;
  repeat match goal with
  | N : ?z <> ?c |- context [?z =? ?c] => rewrite (proj2 (Z.eqb_neq z c) N)
  end; cbv iota.

Ltac case_codes z cs :=
  lazymatch cs with
  | ?c :: ?t => let E := fresh "Ez" in let N := fresh "Nz" in
      destruct (Z.eq_dec z c) as [E|N]; [|case_codes z t]
  | _ => idtac
  end.

(** case analysis of a dispatch on [z] over the keys of table [t] *)
Ltac dispatch z t :=
  let ks := eval vm_compute in (map fst t) in
  let zz := fresh "zz" in
  remember z as zz eqn:Hzz;
  case_codes zz ks;
  [ .. | none_dispatch;
         let N := fresh in
         assert (N : select zz t = None) by (unfold t; cbv [select]; none_dispatch; reflexivity);
         rewrite ?N; clear N ];
  try (match goal with E : zz = ?c |- _ => is_zlit c; rewrite E; eval_dispatch end).
