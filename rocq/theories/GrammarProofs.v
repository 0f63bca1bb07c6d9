(** The interpreter accepts exactly what the grammar derives.  (Support for C61.) *)
From Verif Require Import PyBase Runtime Codec CodecSpec CodecProofs Spec RuntimeProofs Ksy KsySchema KsyTyped InjBase InjCheck InjProofs KsyWire WireProofs KsyGrammar.
From Coq Require Import ZifyBool Lia.
Open Scope string_scope.
Open Scope list_scope.
Open Scope Z_scope.
Ltac Zify.zify_post_hook ::= Z.div_mod_to_equations.

(** ** Bits *)
Lemma app_inj {A} (a b c d : list A) : List.length a = List.length c -> a ++ b = c ++ d -> a = c /\ b = d.
Proof.
  revert c. induction a as [|x a IH]; intros [|y c] H E; cbn [List.length] in H; try discriminate; [now split|]. cbn [app] in E. injection E as -> E. destruct (IH c ltac:(lia) E) as [-> ->]. now split.
Qed.
Lemma app_inj_r {A} (a b c d : list A) : List.length b = List.length d -> a ++ b = c ++ d -> a = c /\ b = d.
Proof. intros H E. apply app_inj; [|exact E]. apply (f_equal (@List.length A)) in E. rewrite !app_length in E. lia. Qed.
Lemma msb_inj n : forall y z, 0 <= y < 2 ^ Z.of_nat n -> 0 <= z < 2 ^ Z.of_nat n -> msb n y = msb n z -> y = z.
Proof.
  induction n as [|n IH]; intros y z Hy Hz E; [change (2 ^ Z.of_nat 0) with 1 in *; lia|]. cbn [msb] in E. rewrite Nat2Z.inj_succ, Z.pow_succ_r in * by lia.
  apply app_inj_r in E as [E1 E2]; [|reflexivity]. apply IH in E1; [|lia|lia]. assert (O : Z.odd y = Z.odd z) by congruence. rewrite (Z.div_mod y 2), (Z.div_mod z 2) by lia. rewrite E1. f_equal. rewrite !Zmod_odd. now rewrite O.
Qed.
Lemma bytes_bits_length x : List.length (bytes_bits x) = (8 * List.length x)%nat.
Proof. induction x as [|a x IH]; [reflexivity|]. unfold bytes_bits in *. cbn [flat_map]. rewrite app_length, IH, msb_length. cbn [List.length]. lia. Qed.
Lemma bytes_bits_inj x : forall y, bytes_bits x = bytes_bits y -> x = y.
Proof.
  induction x as [|a x IH]; intros y E.
  - apply (f_equal (@List.length bool)) in E. rewrite !bytes_bits_length in E. destruct y; [reflexivity|discriminate].
  - destruct y as [|c y]; [apply (f_equal (@List.length bool)) in E; rewrite !bytes_bits_length in E; discriminate|]. unfold bytes_bits in E. cbn [flat_map] in E. apply app_inj in E as [E1 E2]; [|now rewrite !msb_length].
    pose proof (bz_range a). pose proof (bz_range c). apply msb_inj in E1; [|change (2 ^ Z.of_nat 8) with 256; lia|change (2 ^ Z.of_nat 8) with 256; lia]. apply bz_inj in E1 as ->. f_equal. now apply IH.
Qed.
Lemma span_length b o o' : List.length (span b o o') = Z.to_nat (o' - o).
Proof. unfold span. now rewrite map_length, seq_length. Qed.
Lemma mod_pow z n : 0 <= z < 2 ^ Z.of_nat n -> z mod 2 ^ Z.of_nat n = z. Proof. apply Z.mod_small. Qed.
Definition int_size (f : intfmt) : Z := match f with U1 => 1 | U2be | U2le | S2be => 2 | U4be | U4le => 4 end.
Lemma int_bits_length f z : List.length (int_bits f z) = Z.to_nat (8 * int_size f).
Proof. destruct f; cbn [int_bits]; rewrite ?app_length, !msb_length; reflexivity. Qed.
Lemma msb_low n z : msb n z = msb n (z mod 2 ^ Z.of_nat n).
Proof. rewrite (Z.div_mod z (2 ^ Z.of_nat n)) at 1 by lia. rewrite Z.add_comm. apply msb_mod. Qed.
Lemma msb8 y z : msb 8 y = msb 8 z -> y mod 256 = z mod 256.
Proof. intros E. rewrite (msb_low 8 y), (msb_low 8 z) in E. change (2 ^ Z.of_nat 8) with 256 in E. apply msb_inj in E; [exact E| |]; change (2 ^ Z.of_nat 8) with 256; lia. Qed.
Lemma int_bits_inj f y z : fst (range f) <= y < snd (range f) -> fst (range f) <= z < snd (range f) -> int_bits f y = int_bits f z -> y = z.
Proof.
  destruct f; cbn [range fst snd int_bits]; intros Hy Hz E.
  - exact (msb_inj 8 y z Hy Hz E).
  - exact (msb_inj 16 y z Hy Hz E).
  - exact (msb_inj 32 y z Hy Hz E).
  - apply app_inj in E as [E1 E2]; [|now rewrite !msb_length]. apply msb8 in E1, E2. change (2 ^ 16) with 65536 in *. lia.
  - apply app_inj in E as [E1 E]; [|now rewrite !msb_length]. apply app_inj in E as [E2 E]; [|now rewrite !msb_length]. apply app_inj in E as [E3 E4]; [|now rewrite !msb_length]. apply msb8 in E1, E2, E3, E4. change (2 ^ 32) with 4294967296 in *. lia.
  - change (2 ^ 15) with 32768 in *. rewrite (msb_low 16 y), (msb_low 16 z) in E. apply msb_inj in E; change (2 ^ Z.of_nat 16) with 65536 in *; lia.
Qed.

(** ** Objects with and without caches *)
Fixpoint bare (a : attrs) : attrs := match a with [] => [] | (x, w) :: r => if is_cache x then bare r else (x, without_caches w) :: bare r end.
Lemma without_obj c a : without_caches (VObj c a) = VObj c (bare a).
Proof. cbn [without_caches]. f_equal. all: induction a as [|[x w] a IH]; [reflexivity|]; cbn [bare]; rewrite <- IH; reflexivity. Qed.
(** the only caches, at any depth, are those of the instances [ns] *)
Fixpoint tidy (ns : list string) (v : pyval) : bool :=
  match v with
  | VObj c a => (fix go (a : attrs) : bool := match a with [] => true | (x, w) :: r => (if is_cache x then existsb (String.eqb x) ns else tidy ns w) && go r end) a
  | VList l => forallb (tidy ns) l
  | _ => true
  end.
Fixpoint tidy_attrs (ns : list string) (a : attrs) : bool := match a with [] => true | (x, w) :: r => (if is_cache x then existsb (String.eqb x) ns else tidy ns w) && tidy_attrs ns r end.
Lemma tidy_obj ns c a : tidy ns (VObj c a) = tidy_attrs ns a.
Proof. cbn [tidy]. induction a as [|[x w] a IH]; [reflexivity|]. cbn [tidy_attrs]. now rewrite <- IH. Qed.
Fixpoint height (v : pyval) : nat :=
  match v with
  | VObj _ a => S ((fix go (a : attrs) : nat := match a with [] => 0%nat | (_, w) :: r => Nat.max (height w) (go r) end) a)
  | VList l => S ((fix go (l : list pyval) : nat := match l with [] => 0%nat | w :: r => Nat.max (height w) (go r) end) l)
  | _ => 0%nat
  end.
Lemma tidy_nil : forall v, tidy [] v = true -> without_caches v = v.
Proof.
  intros v. remember (height v) as n eqn:E. assert (H : (height v <= n)%nat) by lia. clear E. revert v H. induction n as [|n IH]; intros v H T; destruct v as [| | | | | |l|c l]; try reflexivity; cbn [height] in H; try lia.
  - cbn [without_caches]. f_equal. cbn [tidy] in T. apply le_S_n in H. induction l as [|w l IHl]; [reflexivity|]. cbn [map forallb] in *. apply andb_true_iff in T as [T1 T2]. rewrite IH, IHl by (assumption || lia). reflexivity.
  - rewrite without_obj. f_equal. rewrite tidy_obj in T. apply le_S_n in H. induction l as [|[x w] l IHl]; [reflexivity|]. cbn [bare tidy_attrs existsb] in *. apply andb_true_iff in T as [T1 T2]. destruct (is_cache x); [discriminate|]. rewrite IH, IHl by (assumption || lia). reflexivity.
Qed.
Lemma lookup_app x a r : lookup x (a ++ r) = match lookup x a with Some v => Some v | None => lookup x r end.
Proof. induction a as [|[y v] a IH]; [reflexivity|]. cbn [app lookup]. destruct (String.eqb x y); [reflexivity|exact IH]. Qed.
Lemma bare_app a r : bare (a ++ r) = bare a ++ bare r.
Proof. induction a as [|[x v] a IH]; [reflexivity|]. cbn [app bare]. rewrite IH. destruct (is_cache x); reflexivity. Qed.
Lemma tidy_app ns a r : tidy_attrs ns (a ++ r) = tidy_attrs ns a && tidy_attrs ns r.
Proof. induction a as [|[x v] a IH]; [reflexivity|]. cbn [app tidy_attrs]. rewrite IH. apply andb_assoc. Qed.
Lemma lookup_bare x a : is_cache x = false -> lookup x (bare a) = option_map without_caches (lookup x a).
Proof.
  intros H. induction a as [|[y v] a IH]; [reflexivity|]. cbn [bare lookup]. destruct (String.eqb_spec x y) as [->|N].
  - rewrite H. cbn [lookup]. now rewrite String.eqb_refl.
  - destruct (is_cache y); [exact IH|]. cbn [lookup]. apply String.eqb_neq in N. now rewrite N.
Qed.
Lemma lookup_tidy ns x a v : is_cache x = false -> tidy_attrs ns a = true -> lookup x a = Some v -> tidy ns v = true.
Proof.
  intros H. induction a as [|[y w] a IH]; [discriminate|]. cbn [tidy_attrs lookup]. intros T E. apply andb_true_iff in T as [T1 T2]. destruct (String.eqb_spec x y) as [->|N]; [|now apply IH].
  rewrite H in T1. congruence.
Qed.
Definition cache (x : string) : string := "_m_" ++ x.
Lemma cache_is x : is_cache (cache x) = true. Proof. unfold cache, is_cache. cbn. destruct x; reflexivity. Qed.
Lemma cache_inj x y : cache x = cache y -> x = y. Proof. unfold cache. cbn. congruence. Qed.

(** ** Comparing instances *)
Definition scope_eqb (a b : scope) : bool := match a, b with Self, Self | Parent, Parent | Root, Root => true | _, _ => false end.
Definition enum_dec (a b : option enumdef) : {a = b} + {a <> b}.
Proof. repeat decide equality. Defined.
Definition intfmt_dec (a b : intfmt) : {a = b} + {a <> b}. Proof. decide equality. Defined.
Definition encoding_dec (a b : encoding) : {a = b} + {a <> b}. Proof. decide equality. Defined.
Definition binop_dec (a b : binop) : {a = b} + {a <> b}. Proof. decide equality. Defined.
Definition same_flat (t t' : ty) : bool :=
  match t, t' with TInt f, TInt f' => if intfmt_dec f f' then true else false | TStr c (EInt n), TStr c' (EInt n') => (if encoding_dec c c' then true else false) && (n =? n') | _, _ => false end.
Fixpoint same (e e' : expr) : bool :=
  match e, e' with
  | ETrue, ETrue | ESize, ESize => true
  | EInt z, EInt z' => z =? z'
  | EAttr s x, EAttr s' x' => scope_eqb s s' && String.eqb x x'
  | EDot e x, EDot e' x' => same e e' && String.eqb x x'
  | EToI e, EToI e' => same e e'
  | EBin o a b, EBin o' a' b' => (if binop_dec o o' then true else false) && same a a' && same b b'
  | EIf c a b, EIf c' a' b' => same c c' && same a a' && same b b'
  | EInst s i, EInst s' i' => scope_eqb s s' && same_inst i i'
  | _, _ => false
  end
with same_inst (i i' : inst) : bool :=
  match i, i' with
  | IValue x e, IValue x' e' => String.eqb x x' && same e e'
  | IAt x c p en t, IAt x' c' p' en' t' => String.eqb x x' && same c c' && same p p' && (if enum_dec en en' then true else false) && same_flat t t'
  | _, _ => false
  end.
Lemma same_flat_eq t t' : same_flat t t' = true -> t = t'.
Proof.
  destruct t as [| |f| | |c []| | | | | | |], t' as [| |f'| | |c' []| | | | | | |]; cbn; try discriminate; intros H.
  - destruct (intfmt_dec f f'); congruence.
  - apply andb_true_iff in H as [H1 H2]. destruct (encoding_dec c c'); [|discriminate]. apply Z.eqb_eq in H2. congruence.
Qed.
Lemma same_eq : (forall e e', same e e' = true -> e = e') /\ (forall i i', same_inst i i' = true -> i = i').
Proof.
  assert (Sc : forall s s', scope_eqb s s' = true -> s = s') by (intros [] []; cbn; congruence).
  pose proof (ksy_mind (fun e => forall e', same e e' = true -> e = e') (fun i => forall i', same_inst i i' = true -> i = i') (fun _ => True) (fun _ => True) (fun _ => True) (fun _ => True) (fun _ => True) (fun _ => True)) as X.
  cut (forall A B C : Prop, A /\ B /\ C -> A /\ B); [intros cut3; eapply cut3; apply X; clear X; try (intros; exact I)|tauto].
  all: try (intros until e'; destruct e'; cbn [same]; intros; try discriminate;
    repeat match goal with H : _ && _ = true |- _ => apply andb_true_iff in H as [? ?] | H : String.eqb _ _ = true |- _ => apply String.eqb_eq in H | H : (_ =? _) = true |- _ => apply Z.eqb_eq in H | H : scope_eqb _ _ = true |- _ => apply Sc in H
      | H : (if binop_dec ?a ?b then _ else _) = true |- _ => destruct (binop_dec a b); [|discriminate] end; subst; f_equal; auto; fail).
  - intros x e IH [y e'|]; cbn [same_inst]; [|discriminate]. intros H. apply andb_true_iff in H as [H1 H2]. apply String.eqb_eq in H1. f_equal; auto.
  - intros x c IHc p IHp en t _ [|y c' p' en' t']; cbn [same_inst]; [discriminate|]. intros H. repeat match goal with H : _ && _ = true |- _ => apply andb_true_iff in H as [? ?] | H : String.eqb _ _ = true |- _ => apply String.eqb_eq in H end.
    destruct (enum_dec en en'); [|discriminate]. match goal with H : same_flat _ _ = true |- _ => apply same_flat_eq in H end. f_equal; auto.
Qed.

(** ** Instances whose value does not change while reading goes on *)
Fixpoint fixed (e : expr) : bool :=
  match e with
  | EEof | EPos | EItem => false
  | EDot e _ | EIs e _ _ | EEqS e _ | ENot e | EToI e | EToS e | EDecode e _ => fixed e
  | EAnd a b | EOr a b | EBin _ a b | ECat a b => fixed a && fixed b
  | EIf c a b => fixed c && fixed a && fixed b
  | EInst Parent i => false
  | EInst _ i => fixed_inst i
  | _ => true
  end
with fixed_inst (i : inst) : bool := match i with IValue _ e => fixed e | IAt _ c p _ _ => fixed c && fixed p end.
Definition larger (a a' : attrs) : Prop := forall x v, lookup x a = Some v -> lookup x a' = Some v.
Definition wider : frames -> frames -> Prop := Forall2 larger.
Lemma wider_hd fs fs' : wider fs fs' -> larger (hd [] fs) (hd [] fs').
Proof. intros H. destruct H; [intros x v E; exact E|assumption]. Qed.
Lemma wider_tl fs fs' : wider fs fs' -> wider (tl fs) (tl fs').
Proof. intros H. destruct H; [constructor|assumption]. Qed.
Lemma wider_last fs fs' : wider fs fs' -> larger (last fs []) (last fs' []).
Proof. intros H. induction H as [|a a' fs fs' H1 H2 IH]; [intros x v E; exact E|]. destruct H2; [exact H1|exact IH]. Qed.
Lemma then_some {A B} (x : option A) (f : A -> option B) y : and_then x f = Some y -> exists a, x = Some a /\ f a = Some y.
Proof. destruct x as [a|]; [|discriminate]. intros H. now exists a. Qed.
Lemma ints_then f x y : ints f x y = and_then x (fun v => and_then (int_of v) (fun a => and_then y (fun w => and_then (int_of w) (fun c => Some (f a c))))).
Proof. destruct x as [[]|]; try reflexivity. destruct y as [[]|]; reflexivity. Qed.
Lemma value_at b l fs x c p en t : inst_value b l fs (IAt x c p en t) = and_then (value b l fs VNone c) (fun v => and_then (bool_of v) (fun d =>
      if (d : bool) then and_then (value b l fs VNone p) (fun w => and_then (int_of w) (found b en t)) else Some VNone)).
Proof. reflexivity. Qed.
Lemma values_last b : (forall e, fixed e = true -> forall l l' fs fs' it it' v, wider fs fs' -> value b l fs it e = Some v -> value b l' fs' it' e = Some v) /\
  (forall i, fixed_inst i = true -> forall l l' fs fs' v, wider fs fs' -> inst_value b l fs i = Some v -> inst_value b l' fs' i = Some v).
Proof.
  pose proof (ksy_mind (fun e => fixed e = true -> forall l l' fs fs' it it' v, wider fs fs' -> value b l fs it e = Some v -> value b l' fs' it' e = Some v)
    (fun i => fixed_inst i = true -> forall l l' fs fs' v, wider fs fs' -> inst_value b l fs i = Some v -> inst_value b l' fs' i = Some v) (fun _ => True) (fun _ => True) (fun _ => True) (fun _ => True) (fun _ => True) (fun _ => True)) as X.
  cut (forall A B C : Prop, A /\ B /\ C -> A /\ B); [intros cut3; eapply cut3; apply X; clear X; try (intros; exact I)|tauto].
  all: cbn [fixed fixed_inst]; intros; try discriminate; repeat match goal with H : _ && _ = true |- _ => apply andb_true_iff in H as [? ?] end; try assumption.
  - destruct sc; cbn [value] in *; [now apply (wider_hd _ _ H0)|now apply (wider_hd _ _ (wider_tl _ _ H0))|now apply (wider_last _ _ H0)].
  - cbn [value] in *. apply then_some in H2 as [w [E1 E2]]. erewrite H; eauto.
  - cbn [value] in *. apply then_some in H2 as [w [E1 E2]]. erewrite H; eauto.
  - cbn [value] in *. apply then_some in H2 as [w [E1 E2]]. erewrite H; eauto.
  - cbn [value] in *. apply then_some in H2 as [w [E1 E2]]. erewrite H; eauto.
  - cbn [value] in *. apply then_some in H3 as [w [E1 E2]]. apply then_some in E2 as [c [E2 E3]]. erewrite H; eauto. cbn [and_then]. rewrite E2. cbn [and_then]. destruct c; eauto.
  - cbn [value] in *. apply then_some in H3 as [w [E1 E2]]. apply then_some in E2 as [c [E2 E3]]. erewrite H; eauto. cbn [and_then]. rewrite E2. cbn [and_then]. destruct c; eauto.
  - assert (G : forall f, ints f (value b l fs it a) (value b l fs it b0) = Some v -> ints f (value b l' fs' it' a) (value b l' fs' it' b0) = Some v).
    { intros f. rewrite !ints_then. intros E. apply then_some in E as [w [E1 E2]]. apply then_some in E2 as [x [E2 E3]]. apply then_some in E3 as [y [E3 E4]]. erewrite H; eauto. cbn [and_then]. rewrite E2. cbn [and_then]. erewrite H0; eauto. }
    destruct o; cbn [value] in *; eauto.
  - cbn [value] in *. apply then_some in H4 as [w [E1 E2]]. apply then_some in E2 as [d [E2 E3]]. erewrite H; eauto. cbn [and_then]. rewrite E2. cbn [and_then]. destruct d; eauto.
  - cbn [value] in *. apply then_some in H2 as [w [E1 E2]]. erewrite H; eauto.
  - cbn [value] in *. apply then_some in H2 as [w [E1 E2]]. erewrite H; eauto.
  - cbn [value] in *. apply then_some in H3 as [w [E1 E2]]. apply then_some in E2 as [x [E2 E3]]. apply then_some in E3 as [y [E3 E4]]. erewrite H; eauto. cbn [and_then]. rewrite E2. cbn [and_then]. erewrite H0; eauto.
  - cbn [value] in *. apply then_some in H2 as [w [E1 E2]]. erewrite H; eauto.
  - destruct sc; try discriminate; cbn [value] in *; (eapply H; [eassumption| |eassumption]); [assumption|]. constructor; [now apply wider_last|constructor].
  - cbn [inst_value] in *. eauto.
  - rewrite value_at in *. match goal with E : and_then _ _ = Some _ |- _ => rename E into H9 end. apply then_some in H9 as [w [E1 E2]]. apply then_some in E2 as [d [E2 E3]]. erewrite H; eauto. cbn [and_then]. rewrite E2. cbn [and_then]. destruct d; [|exact E3]. apply then_some in E3 as [w' [E3 E4]]. erewrite H0; eauto.
Qed.

(** ** The check on definitions: attributes are not named like caches; the instances evaluated while reading are among [env], and only
    at byte boundaries; everything but bit fields starts at a byte *)
Definition inst_name (i : inst) : string := match i with IValue x _ => x | IAt x _ _ _ _ => x end.
Section Check.
Context (env : list inst).
Definition listed (i : inst) : bool := existsb (same_inst i) env.
Fixpoint sound (e : expr) : bool :=
  match e with
  | EAttr _ x => negb (is_cache x)
  | EDot e x => negb (is_cache x) && sound e
  | EIs e _ _ | EEqS e _ | ENot e | EToI e | EToS e | EDecode e _ => sound e
  | EAnd a b | EOr a b | EBin _ a b | ECat a b => sound a && sound b
  | EIf c a b => sound c && sound a && sound b
  | EInst Parent _ => false
  | EInst _ i => listed i
  | _ => true
  end.
Definition placed (p : expr) : bool := match p with EInt n => 0 <=? n | EBin Sub ESize (EInt 1) => true | _ => false end.
Definition findable (t : ty) : bool := match t with TInt U1 | TInt U2be => true | TStr _ (EInt n) => 0 <? n | _ => false end.
Definition sound_inst (i : inst) : bool := fixed_inst i && match i with IValue _ e => sound e | IAt _ c p _ t => sound c && placed p && findable t end.
Fixpoint distinct_names (l : list inst) : bool := match l with [] => true | i :: r => negb (existsb (fun j => String.eqb (inst_name i) (inst_name j)) r) && distinct_names r end.
Definition env_ok : bool := forallb sound_inst env && distinct_names env.

Fixpoint gty (t : ty) : bool :=
  match t with
  | TBits _ | TFlag | TSized _ _ => false
  | TInt _ | TEos | TStrEos _ | TContents _ => true
  | TBytes e | TStr _ e => sound e
  | TValid t _ => gty t
  | TImported t | TLocal t => gtyp t
  | TSwitch e cs => sound e && gcases cs
  end
with gcases (cs : cases) : bool := match cs with CNil => true | CDefault t => gty t | CCons _ t cs => gty t && gcases cs end
with gseq (q : attr_list) (l : option Z) : option (option Z) :=
  match q with
  | Nil => Some l
  | Attr x c r en t q =>
      if negb (is_cache x) && sound c then
      match width t with
      | Some n => match r with Once => if no_inst c then gseq q (step l c n) else None | _ => None end
      | None => if at_byte l && gty t && match r with Once | Eos => true | Times e | Until e => sound e end then gseq q (Some 0) else None
      end
      else None
  end
with gtyp (t : typ) : bool := match t with Typ _ q => match gseq q (Some 0) with Some l => at_byte l | None => false end end.
Definition grammatical (t : typ) : bool := match t with Typ _ q => match gseq q (Some 0) with Some _ => true | None => false end end.
Lemma listed_in i : listed i = true -> In i env.
Proof. intros H. apply existsb_exists in H as [j [Hj E]]. apply same_eq in E. now subst. Qed.
Lemma names_distinct i j : distinct_names env = true -> In i env -> In j env -> inst_name i = inst_name j -> i = j.
Proof.
  induction env as [|k l IH]; [contradiction|]. cbn [distinct_names]. intros H Hi Hj E. apply andb_true_iff in H as [H1 H2]. apply negb_true_iff in H1.
  assert (X : forall m, In m l -> inst_name k = inst_name m -> False). { intros m Hm Em. assert (T : existsb (fun j => String.eqb (inst_name k) (inst_name j)) l = true) by (apply existsb_exists; exists m; split; [exact Hm|now apply String.eqb_eq]). congruence. }
  destruct Hi as [->|Hi], Hj as [->|Hj]; [reflexivity|exfalso; eauto|exfalso; eapply X; [exact Hi|congruence]|auto].
Qed.
End Check.

Section One.
Context (rt : runtime) (b : bytes) (env : list inst).
Hypothesis Henv : env_ok env = true.
Notation fin := (8 * blen b).
Notation size := (blen b).
Definition ns : list string := map (fun i => cache (inst_name i)) env.

(** ** Python's objects and those of the grammar *)
Definition SV (v' v : pyval) : Prop := without_caches v' = v /\ tidy ns v' = true.
Definition SO (v' v : option pyval) : Prop := match v', v with Some v', Some v => SV v' v | None, None => True | _, _ => False end.
Definition SL : list pyval -> list pyval -> Prop := Forall2 SV.
Definition SA (a' a : attrs) : Prop := bare a' = a /\ tidy_attrs ns a' = true.
(** every cache of an object under construction holds the value its instance has now *)
Definition valid (a' : attrs) (fs : frames) : Prop := forall x v, lookup (cache x) a' = Some v -> exists i, In i env /\ inst_name i = x /\ tidy ns v = true /\ forall l, inst_value b l fs i = Some (without_caches v).
Fixpoint R0 (F0 fs : frames) : Prop := match F0, fs with [], [] => True | A :: F1, a :: fs1 => SA A a /\ valid A (a :: fs1) /\ R0 F1 fs1 | _, _ => False end.
Definition RR (F fs : frames) : Prop := R0 F fs /\ fs <> [].

Lemma SV_obj c A v : SV (VObj c A) v -> exists a, v = VObj c a /\ SA A a.
Proof. intros [<- T]. exists (bare A). rewrite without_obj. split; [reflexivity|]. split; [reflexivity|]. now rewrite tidy_obj in T. Qed.
Lemma obj_SV c A a : SA A a -> SV (VObj c A) (VObj c a).
Proof. intros [<- T]. split; [apply without_obj|]. now rewrite tidy_obj. Qed.
Lemma SA_lookup A a x : SA A a -> is_cache x = false -> SO (lookup x A) (lookup x a).
Proof.
  intros [<- T] H. rewrite lookup_bare by exact H. destruct (lookup x A) as [v|] eqn:E; cbn [option_map SO]; [|exact I]. split; [reflexivity|]. now apply (lookup_tidy _ _ _ _ H T).
Qed.
Lemma R_hd F fs : R0 F fs -> SA (hd [] F) (hd [] fs).
Proof. destruct F, fs; cbn [R0 hd]; try contradiction; [intros _; split; reflexivity|intros H; apply H]. Qed.
Lemma R_tl F fs : R0 F fs -> R0 (tl F) (tl fs).
Proof. destruct F, fs; cbn [R0 tl]; try contradiction; [intros _; exact I|intros H; apply H]. Qed.
Lemma R_last F : forall fs, R0 F fs -> SA (last F []) (last fs []) /\ valid (last F []) [last fs []].
Proof.
  induction F as [|A F IH]; intros [|a fs]; cbn [R0]; try contradiction.
  - intros _. split; [split; reflexivity|]. intros x v E. discriminate.
  - intros [H1 [H2 H3]]. specialize (IH fs H3). destruct F as [|A' F], fs as [|a' fs]; cbn [R0] in H3; try contradiction; [split; assumption|exact IH].
Qed.
Lemma R_root F fs A' : R0 F fs -> fs <> [] -> R0 [A'] [last fs []] -> R0 (removelast F ++ [A']) fs.
Proof.
  revert fs. induction F as [|A F IH]; intros [|a fs]; cbn [R0]; try contradiction. intros [H1 [H2 H3]] _ H. destruct F as [|A1 F], fs as [|a1 fs]; try (cbn [R0] in H3; contradiction).
  - cbn [removelast app R0 last] in *. exact H.
  - change (removelast (A :: A1 :: F) ++ [A']) with (A :: (removelast (A1 :: F) ++ [A'])). cbn [R0]. split; [exact H1|]. split; [exact H2|]. apply IH; [exact H3|discriminate|exact H].
Qed.
Lemma wider_refl fs : wider fs fs.
Proof. induction fs; constructor; [intros x v E; exact E|assumption]. Qed.
(** entering a value of an instance in the cache *)
Lemma R_cache A F a fs i v : R0 (A :: F) (a :: fs) -> In i env -> tidy ns v = true -> (forall l, inst_value b l (a :: fs) i = Some (without_caches v)) -> R0 ((A ++ [(cache (inst_name i), v)]) :: F) (a :: fs).
Proof.
  cbn [R0]. intros [[H1 T1] [H2 H3]] Hi T V. split; [split|split; [|exact H3]].
  - rewrite bare_app. cbn [bare]. rewrite cache_is, app_nil_r. exact H1.
  - rewrite tidy_app, T1. cbn [tidy_attrs]. rewrite cache_is. assert (X : existsb (String.eqb (cache (inst_name i))) ns = true) by (apply existsb_exists; exists (cache (inst_name i)); split; [apply (in_map (fun i => cache (inst_name i))); exact Hi|apply String.eqb_refl]). now rewrite X.
  - intros x w E. rewrite lookup_app in E. destruct (lookup (cache x) A) as [w'|] eqn:L.
    + assert (w' = w) as -> by congruence. now apply H2.
    + cbn [lookup] in E. destruct (String.eqb_spec (cache x) (cache (inst_name i))) as [N|]; [|discriminate]. apply cache_inj in N. assert (v = w) as -> by congruence. exists i. auto.
Qed.
(** entering an attribute *)
Lemma R_put A F a fs x v' v : is_cache x = false -> SV v' v -> R0 (A :: F) (a :: fs) -> R0 ((A ++ [(x, v')]) :: F) ((a ++ [(x, v)]) :: fs).
Proof.
  cbn [R0]. intros N [V T] [[H1 T1] [H2 H3]]. split; [split|split; [|exact H3]].
  - rewrite bare_app. cbn [bare]. rewrite N, H1, V. reflexivity.
  - rewrite tidy_app, T1. cbn [tidy_attrs]. rewrite N, T. reflexivity.
  - intros y w E. rewrite lookup_app in E. destruct (lookup (cache y) A) as [w'|] eqn:L.
    + assert (w' = w) as -> by congruence. destruct (H2 y w L) as [i [Hi [E1 [E2 E3]]]]. exists i. split; [exact Hi|]. split; [exact E1|]. split; [exact E2|]. intros l.
      assert (Fi : fixed_inst i = true). { unfold env_ok in Henv. apply andb_true_iff in Henv as [G _]. rewrite forallb_forall in G. specialize (G i Hi). unfold sound_inst in G. now apply andb_true_iff in G as [G _]. }
      refine (proj2 (values_last b) i Fi l l (a :: fs) _ _ _ (E3 l)). constructor; [|apply wider_refl]. intros z u Ez. rewrite lookup_app, Ez. reflexivity.
    + cbn [lookup] in E. destruct (String.eqb_spec (cache y) x) as [<-|]; [|discriminate]. rewrite cache_is in N. discriminate.
Qed.
Lemma R_push F fs : R0 F fs -> R0 ([] :: F) ([] :: fs).
Proof. intros H. cbn [R0]. split; [split; reflexivity|]. split; [|exact H]. intros x v E. discriminate. Qed.
Lemma R_cons F fs : RR F fs -> exists A F' a fs', F = A :: F' /\ fs = a :: fs'.
Proof. intros [H N]. destruct F, fs; cbn [R0] in H; try contradiction. eauto 6. Qed.

(** ** Expressions *)
Lemma kbind_ok {A B} (m : K A) (k : A -> K B) fs s a f s1 : m fs s = (Ok (a, f), s1) -> kbind m k fs s = k a f s1.
Proof. intros E. unfold kbind, bind. rewrite E. reflexivity. Qed.
Lemma eof_at o : 0 <= o <= fin -> is_eof rt (at_ b 0 o) = (Ok (match span b o fin with [] => true | _ => false end), at_ b 0 o).
Proof.
  intros Ho. assert (Hs : (match span b o fin with [] => true | _ => false end) = (fin <=? o)).
  { pose proof (span_length b o fin) as L. destruct (span b o fin); cbn [List.length] in L; destruct (Z.leb_spec fin o); lia || reflexivity. }
  rewrite Hs. destruct (Z.eq_dec (o mod 8) 0) as [E|E].
  - pose proof (run_is_eof rt b 0 o ltac:(lia) ltac:(lia) E) as R. unfold runM in R. destruct (is_eof rt (at_ b 0 o)) as [[x|x] t]; [|discriminate]. assert (t = at_ b 0 o) as -> by congruence. assert (x = (blen b <=? 0 + o / 8)) as -> by congruence.
    do 2 f_equal. destruct (Z.leb_spec (blen b) (0 + o / 8)), (Z.leb_spec fin o); lia || reflexivity.
  - Local Transparent at_. unfold is_eof, at_. cbn [s_left]. destruct (Z.ltb_spec 0 (- o mod 8)); [|lia]. Local Opaque at_. do 2 f_equal. destruct (Z.leb_spec fin o); lia || reflexivity.
Qed.
Lemma pos_at o : 0 <= o <= fin -> io_pos (at_ b 0 o) = (Ok (size - Z.of_nat (List.length (span b o fin)) / 8), at_ b 0 o).
Proof.
  intros Ho. pose proof (run_io_pos b 0 o ltac:(lia) ltac:(lia)) as R. unfold runM in R. destruct (io_pos (at_ b 0 o)) as [[x|x] t]; [|discriminate]. assert (t = at_ b 0 o) as -> by congruence. assert (x = 0 + (o + 7) / 8) as -> by congruence.
  do 2 f_equal. rewrite span_length. lia.
Qed.
Lemma size_at o : io_size (at_ b 0 o) = (Ok size, at_ b 0 o). Proof. reflexivity. Qed.

Definition yields {A} (Q : A -> A -> Prop) o fs (m : K A) (r : option A) : Prop := forall F, RR F fs ->
  match r with Some v => exists v' F', m F (at_ b 0 o) = (Ok (v', F'), at_ b 0 o) /\ Q v' v /\ RR F' fs | None => exists x s, m F (at_ b 0 o) = (Err x, s) end.
Lemma y_bind {A B} (Q : A -> A -> Prop) (Q' : B -> B -> Prop) o fs (m : K A) (k : A -> K B) r g : yields Q o fs m r -> (forall a' a, Q a' a -> yields Q' o fs (k a') (g a)) -> yields Q' o fs (kbind m k) (and_then r g).
Proof.
  intros H1 H2 F HF. specialize (H1 F HF). destruct r as [a|]; cbn [and_then].
  - destruct H1 as [v' [F' [E [HQ HF']]]]. specialize (H2 v' a HQ F' HF'). rewrite (kbind_ok _ _ _ _ _ _ _ E). exact H2.
  - destruct H1 as [x [s H1]]. exists x, s. unfold kbind, bind. now rewrite H1.
Qed.
Lemma y_ret {A} (Q : A -> A -> Prop) o fs (a' a : A) : Q a' a -> yields Q o fs (kret a') (Some a). Proof. intros H F HF. exists a', F. split; [reflexivity|]. now split. Qed.
Ltac flat := split; reflexivity.
Lemma y_int o fs v' v : SV v' v -> yields eq o fs (need_int v') (int_of v). Proof. intros [<- _] F HF. destruct v'; cbn; try (do 2 eexists; reflexivity). do 2 eexists. split; [reflexivity|]. auto. Qed.
Lemma y_bool o fs v' v : SV v' v -> yields eq o fs (need_bool v') (bool_of v). Proof. intros [<- _] F HF. destruct v'; cbn; try (do 2 eexists; reflexivity). do 2 eexists. split; [reflexivity|]. auto. Qed.
Lemma y_str o fs v' v : SV v' v -> yields eq o fs (need_str v') (str_of v). Proof. intros [<- _] F HF. destruct v'; cbn; try (do 2 eexists; reflexivity). do 2 eexists. split; [reflexivity|]. auto. Qed.
Lemma SV_getattr x v' v : is_cache x = false -> SV v' v -> SO (getattr x v') (getattr x v).
Proof.
  intros N H. destruct v'; try (destruct H as [<- _]; exact I). apply SV_obj in H as [a [-> H]]. cbn [getattr]. now apply SA_lookup.
Qed.
Lemma SV_scalar v' v : SV v' v -> forall E m, eq_member E m v' = eq_member E m v.
Proof. intros [<- _] E m. destruct v'; try reflexivity. Qed.
(** looking something up at a position *)
Lemma numeral_SV en z : SV (numeral en z) (numeral en z).
Proof. destruct en as [E|]; cbn [numeral]; [|flat]. unfold resolve_enum. match goal with |- context [en_find ?a ?b] => destruct (en_find a b) end; flat. Qed.
Lemma as_enum_ok en (m : M Z) z s s' : m s = (Ok z, s') -> as_enum en m s = (Ok (numeral en z), s').
Proof. intros E. destruct en as [e|]; cbn [as_enum numeral]; unfold venum, vint, bind; rewrite E; reflexivity. Qed.
Lemma as_enum_err en (m : M Z) x s s' : m s = (Err x, s') -> as_enum en m s = (Err x, s').
Proof. intros E. destruct en as [e|]; cbn [as_enum]; unfold venum, vint, bind; rewrite E; reflexivity. Qed.
Lemma runM_ok {A} (m : M A) s v s' : runM m s = Ok (v, s') -> m s = (Ok v, s').
Proof. unfold runM. destruct (m s) as [[x|x] t]; [congruence|discriminate]. Qed.
Lemma runM_err {A} (m : M A) s x : runM m s = Err x -> exists s', m s = (Err x, s').
Proof. unfold runM. destruct (m s) as [[y|y] t]; [discriminate|]. intros E. exists t. congruence. Qed.
Lemma find_at en t p F : findable t = true -> 0 <= p ->
  match found b en t p with Some v => SV v v /\ exists q, 0 <= q /\ run_ty rt "" en t F (at_ b p 0) = (Ok (Some v, F), at_ b q 0) | None => exists x s, run_ty rt "" en t F (at_ b p 0) = (Err x, s) end.
Proof.
  intros Hf Hp.
  assert (Num : forall f n, 0 < n -> (runM (number rt f) (at_ b p 0) = if fits b p (0 + 8 * n) then Ok (ubits b (8 * p + 0) (8 * n), at_ b p (0 + 8 * n)) else Err EOFError) ->
    match (if (0 <=? p) && (p + n <=? blen b) then Some (numeral en (ubits b (8 * p) (8 * n))) else None) with Some v => SV v v /\ exists q, 0 <= q /\ run_ty rt "" en (TInt f) F (at_ b p 0) = (Ok (Some v, F), at_ b q 0) | None => exists x s, run_ty rt "" en (TInt f) F (at_ b p 0) = (Err x, s) end).
  { intros f n Hn R. destruct (Z.leb_spec 0 p); [|lia]. cbn [andb]. destruct (Z.leb_spec (p + n) (blen b)) as [L|L].
    - assert (Fi : fits b p (0 + 8 * n) = true) by (apply fits_iff; lia). rewrite Fi in R. split; [apply numeral_SV|]. exists (p + n). split; [lia|]. apply runM_ok in R. cbn [run_ty]. unfold kbind, io, bind. rewrite (as_enum_ok _ _ _ _ _ R). cbn [fst snd]. unfold kret, ret. rewrite Z.add_0_r.
      replace (at_ b p (0 + 8 * n)) with (at_ b (p + n) 0); [reflexivity|]. rewrite at_rebase by lia. f_equal. lia.
    - assert (Fi : fits b p (0 + 8 * n) = false) by (destruct (fits b p (0 + 8 * n)) eqn:Fi; [apply fits_iff in Fi; lia|reflexivity]). rewrite Fi in R. apply runM_err in R as [s R]. exists EOFError, s. cbn [run_ty]. unfold kbind, io, bind. rewrite (as_enum_err _ _ _ _ _ R). reflexivity. }
  destruct t as [| |[]| | |c []| | | | | | |]; try discriminate; cbn [found].
  - apply (Num U1 1); [lia|]. exact (run_read_u1 rt b p 0 Hp ltac:(lia) eq_refl).
  - apply (Num U2be 2); [lia|]. exact (run_read_u2be rt b p 0 Hp ltac:(lia) eq_refl).
  - cbn [findable] in Hf. assert (Hz : 0 < z) by lia. destruct (Z.leb_spec 0 p); [|lia]. destruct (Z.leb_spec 0 z); [|lia]. cbn [andb].
    pose proof (run_read_bytes_var rt b p 0 z Hp ltac:(lia) eq_refl ltac:(right; lia)) as R. destruct (Z.ltb_spec z 0); [lia|]. change (0 / 8) with 0 in R. rewrite Z.add_0_r in R.
    change (run_ty rt "" en (TStr c (EInt z))) with (n <~ eval rt (EInt z) VNone;; n <~ need_int n;; v <~ io (vstr rt c n);; kret (Some v)).
    rewrite (kbind_ok _ _ F (at_ b p 0) (VInt z) F (at_ b p 0)) by reflexivity. rewrite (kbind_ok _ _ F (at_ b p 0) z F (at_ b p 0)) by reflexivity.
    destruct (Z.leb_spec (p + z) (blen b)) as [L|L].
    + apply runM_ok in R. unfold and_then. unfold kbind, io, vstr, read_str, bind. rewrite R. unfold lift, py_decode. destruct (decode_text c (slice b p z)); cbn; [|do 2 eexists; reflexivity]. split; [flat|]. exists (p + z). split; [lia|]. reflexivity.
    + apply runM_err in R as [s R]. exists EOFError, s. unfold kbind, io, vstr, read_str, bind. rewrite R. reflexivity.
Qed.
Lemma seek_at o q p : o mod 8 = 0 -> 0 <= p -> io_seek rt p (at_ b q o) = (Ok tt, at_ b p 0).
Proof. intros Ho Hp. apply runM_ok. now apply run_io_seek. Qed.

Lemma placed_sound p : placed p = true -> sound env p = true.
Proof. destruct p as [| | | | | | | | | | | | | |o x y| | | | | |]; try discriminate; try reflexivity. destruct o; try discriminate. destruct x; try discriminate. destruct y; try discriminate. reflexivity. Qed.
Lemma placed_value p l fs : placed p = true -> exists n, value b l fs VNone p = Some (VInt n) /\ (0 <= n \/ n = -1 /\ blen b = 0).
Proof.
  destruct p as [|z| | | | | | | | | | | | |o x y| | | | | |]; try discriminate; intros H.
  - cbn [placed] in H. exists z. split; [reflexivity|left; lia].
  - destruct o; try discriminate. destruct x; try discriminate. destruct y as [|z| | | | | | | | | | | | | | | | | | |]; try discriminate. assert (z = 1) as -> by (destruct z as [|[]|]; try discriminate; reflexivity). exists (blen b - 1). split; [reflexivity|]. unfold blen. lia.
Qed.
Lemma found_nothing en t : findable t = true -> blen b = 0 -> found b en t (-1) = found b en t 0.
Proof.
  intros H E. destruct t as [| |f| | |c e| | | | | | |]; try discriminate.
  { destruct f; try discriminate; unfold found; rewrite E; change (0 <=? -1) with false; change (0 + 1 <=? 0) with false; change (0 + 2 <=? 0) with false; cbn [andb]; rewrite andb_false_r; reflexivity. }
  destruct e as [|z| | | | | | | | | | | | | | | | | | |]; try discriminate. cbn [findable] in H. unfold found. rewrite E.
  destruct (Z.leb_spec (0 + z) 0); [lia|]. change (0 <=? -1) with false. rewrite andb_false_r. cbn [andb]. reflexivity.
Qed.
Lemma evaluates : (forall e, sound env e = true -> forall it' it fs o, SV it' it -> 0 <= o <= fin -> o mod 8 = 0 \/ no_inst e = true -> yields SV o fs (eval rt e it') (value b (span b o fin) fs it e)) /\
  (forall i, In i env -> forall fs o, 0 <= o <= fin -> o mod 8 = 0 -> yields SV o fs (run_inst rt i) (inst_value b (span b o fin) fs i)).
Proof.
  pose proof (ksy_mind (fun e => sound env e = true -> forall it' it fs o, SV it' it -> 0 <= o <= fin -> o mod 8 = 0 \/ no_inst e = true -> yields SV o fs (eval rt e it') (value b (span b o fin) fs it e))
    (fun i => In i env -> forall fs o, 0 <= o <= fin -> o mod 8 = 0 -> yields SV o fs (run_inst rt i) (inst_value b (span b o fin) fs i)) (fun _ => True) (fun _ => True) (fun _ => True) (fun _ => True) (fun _ => True) (fun _ => True)) as X.
  assert (SN : SV VNone VNone) by flat.
  assert (Chk : forall i, In i env -> sound_inst env i = true). { intros i Hi. unfold env_ok in Henv. apply andb_true_iff in Henv as [G _]. rewrite forallb_forall in G. auto. }
  assert (Dis : forall i j, In i env -> In j env -> inst_name i = inst_name j -> i = j). { intros i j. apply names_distinct. unfold env_ok in Henv. now apply andb_true_iff in Henv as [_ G]. }
  (* a cached value is the right one; a computed value is entered *)
  assert (Memo : forall i fs o (m : K pyval), In i env -> 0 <= o <= fin -> yields SV o fs m (inst_value b (span b o fin) fs i) ->
    forall F, RR F fs -> match inst_value b (span b o fin) fs i with
      | Some v => exists v' F', (match lookup (cache (inst_name i)) (hd [] F) with Some v => ret (v, F) | None => (v <~ m;; _ <~ put (cache (inst_name i)) v;; kret v) F end) (at_ b 0 o) = (Ok (v', F'), at_ b 0 o) /\ SV v' v /\ RR F' fs
      | None => exists x s, (match lookup (cache (inst_name i)) (hd [] F) with Some v => ret (v, F) | None => (v <~ m;; _ <~ put (cache (inst_name i)) v;; kret v) F end) (at_ b 0 o) = (Err x, s) end).
  { intros i fs o m Hi Ho Y F HF. destruct (R_cons _ _ HF) as [A [F1 [a [fs1 [-> ->]]]]]. cbn [hd]. destruct (lookup (cache (inst_name i)) A) as [w|] eqn:L.
    - destruct HF as [[HA [HV HF]] N]. destruct (HV _ _ L) as [j [Hj [Ej [T V]]]]. assert (j = i) as -> by auto. rewrite V. exists w, (A :: F1). split; [reflexivity|]. split; [split; [reflexivity|exact T]|]. split; [|exact N]. cbn [R0]. auto.
    - specialize (Y _ HF). destruct (inst_value b (span b o fin) (a :: fs1) i) as [v|] eqn:V.
      + destruct Y as [v' [F' [E [Sv HF']]]]. rewrite (kbind_ok _ _ _ _ _ _ _ E). destruct (R_cons _ _ HF') as [A' [F1' [a' [fs1' [-> E']]]]]. injection E' as <- <-. exists v', ((A' ++ [(cache (inst_name i), v')]) :: F1'). split; [reflexivity|]. split; [exact Sv|]. split; [|discriminate].
        destruct Sv as [Sv T]. apply R_cache; [exact (proj1 HF')|exact Hi|exact T|]. intros l. rewrite Sv. refine (proj2 (values_last b) i _ _ _ _ _ _ (wider_refl _) V). specialize (Chk i Hi). unfold sound_inst in Chk. now apply andb_true_iff in Chk as [G _].
      + destruct Y as [x [s E]]. exists x, s. unfold kbind at 1, bind. rewrite E. reflexivity. }
  cut (forall A B C : Prop, A /\ B /\ C -> A /\ B); [intros cut3; eapply cut3; apply X; clear X; try (intros; exact I)|tauto].
  Ltac al := match goal with H : _ mod 8 = 0 \/ _ = true |- _ => destruct H as [H|H]; [left; exact H|right; cbn [no_inst] in H; repeat (apply andb_true_iff in H as [H ?]); assumption] end.
  Ltac ih := match goal with IH : sound _ ?e = true -> _ |- yields _ _ _ (eval _ ?e _) _ => apply IH; [assumption|assumption|assumption|al] end.
  all: cbn [sound value eval]; intros; repeat match goal with H : _ && _ = true |- _ => apply andb_true_iff in H as [? ?] | H : negb _ = true |- _ => apply negb_true_iff in H end; try discriminate; try (apply y_ret; first [assumption|flat]).
  - intros F HF. unfold get. assert (L : SO (lookup x (hd [] (outer sc F))) (match sc with Self => lookup x (hd [] fs) | Parent => lookup x (hd [] (tl fs)) | Root => lookup x (last fs []) end)).
    { destruct HF as [HF _]. destruct sc; cbn [outer hd]; (apply SA_lookup; [|assumption]); [now apply R_hd|now apply R_hd, R_tl|now apply R_last]. }
    destruct sc; cbv iota in *; (destruct (lookup _ (hd [] _)), (lookup x _); cbn [SO] in L; try contradiction; [do 2 eexists; split; [reflexivity|]; auto|do 2 eexists; reflexivity]).
  - apply (y_bind SV SV); [ih|]. intros v' v Sv F HF. pose proof (SV_getattr x v' v ltac:(assumption) Sv) as G. destruct (getattr x v'), (getattr x v); cbn [SO] in G; try contradiction; [do 2 eexists; split; [reflexivity|]; auto|do 2 eexists; reflexivity].
  - intros F HF. exists (VBool (match span b o fin with [] => true | _ => false end)), F. split; [|split; [flat|exact HF]]. unfold kbind, io, bind. rewrite eof_at by assumption. reflexivity.
  - intros F HF. exists (VInt (blen b)), F. split; [reflexivity|split; [flat|exact HF]].
  - intros F HF. exists (VInt (blen b - Z.of_nat (List.length (span b o fin)) / 8)), F. split; [|split; [flat|exact HF]]. unfold kbind, io, bind. rewrite pos_at by assumption. reflexivity.
  - apply (y_bind SV SV); [ih|]. intros v' v Sv. rewrite (SV_scalar _ _ Sv). apply y_ret; flat.
  - apply (y_bind SV SV); [ih|]. intros v' v Sv. apply (y_bind eq SV); [now apply y_str|]. intros t ? <-. apply y_ret; flat.
  - apply (y_bind SV SV); [ih|]. intros v' v Sv. apply (y_bind eq SV); [now apply y_bool|]. intros t ? <-. apply y_ret; flat.
  - apply (y_bind SV SV); [ih|]. intros v' v Sv. apply (y_bind eq SV); [now apply y_bool|]. intros [|] ? <-; [ih|apply y_ret; flat].
  - apply (y_bind SV SV); [ih|]. intros v' v Sv. apply (y_bind eq SV); [now apply y_bool|]. intros [|] ? <-; [apply y_ret; flat|ih].
  - assert (G : forall f, (forall x y, binary o x y = f x y) -> (forall x y, SV (f x y) (f x y)) -> yields SV o0 fs (v <~ eval rt a it';; y <~ need_int v;; w <~ eval rt b0 it';; z <~ need_int w;; kret (binary o y z)) (ints f (value b (span b o0 fin) fs it a) (value b (span b o0 fin) fs it b0))).
    { intros f Hf Sf. rewrite ints_then. apply (y_bind SV SV); [ih|]. intros v' v Sv. apply (y_bind eq SV); [now apply y_int|]. intros y ? <-. apply (y_bind SV SV); [ih|]. intros w' w Sw. apply (y_bind eq SV); [now apply y_int|]. intros z ? <-. rewrite Hf. apply y_ret, Sf. }
    destruct o; apply G; try reflexivity; intros; flat.
  - apply (y_bind SV SV); [ih|]. intros v' v Sv. apply (y_bind eq SV); [now apply y_bool|]. intros [|] ? <-; ih.
  - apply (y_bind SV SV); [ih|]. intros v' v [<- _] F HF. destruct v'; cbn; try (do 2 eexists; reflexivity); (do 2 eexists; split; [reflexivity|]; split; [flat|exact HF]).
  - apply (y_bind SV SV); [ih|]. intros v' v Sv. apply (y_bind eq SV); [now apply y_int|]. intros t ? <-. apply y_ret; flat.
  - apply (y_bind SV SV); [ih|]. intros v' v Sv. apply (y_bind eq SV); [now apply y_str|]. intros x ? <-. apply (y_bind SV SV); [ih|]. intros w' w Sw. apply (y_bind eq SV); [now apply y_str|]. intros y ? <-. apply y_ret; flat.
  - apply (y_bind SV SV); [ih|]. intros v' v [<- _] F HF. destruct v'; cbn; try (do 2 eexists; reflexivity). unfold bind, lift, py_decode. match goal with |- context [decode_text ?c ?x] => destruct (decode_text c x) end; [|do 2 eexists; reflexivity]. do 2 eexists. split; [reflexivity|]. split; [flat|exact HF].
  - (* an instance *) assert (Ha : o mod 8 = 0) by (destruct H3 as [?|?]; [assumption|discriminate]). assert (Hi : In i env) by (apply listed_in; destruct sc; (assumption || discriminate)). destruct sc; [| |].
    + change (yields SV o fs (fun fs => r <- run_inst rt i (outer Self fs);; ret (fst r, inner Self fs ++ snd r)) (inst_value b (span b o fin) fs i)). intros F HF. specialize (H Hi fs o H2 Ha F HF). destruct (inst_value b (span b o fin) fs i).
      * destruct H as [v' [F' [E [Sv HF']]]]. exists v', F'. split; [|auto]. cbn [outer inner app]. unfold bind. rewrite E. reflexivity.
      * destruct H as [x [s E]]. exists x, s. cbn [outer inner app]. unfold bind. now rewrite E.
    + discriminate.
    + change (yields SV o fs (fun fs => r <- run_inst rt i (outer Root fs);; ret (fst r, inner Root fs ++ snd r)) (inst_value b (span b o fin) [last fs []] i)). intros F HF. assert (HL : RR [last F []] [last fs []]). { destruct HF as [HF _]. split; [|discriminate]. destruct (R_last _ _ HF). cbn [R0]. auto. }
      specialize (H Hi [last fs []] o H2 Ha _ HL). destruct (inst_value b (span b o fin) [last fs []] i).
      * destruct H as [v' [F' [E [Sv HF']]]]. destruct (R_cons _ _ HF') as [A' [F1' [a' [fs1' [-> E']]]]]. destruct HF' as [HF' _]. destruct F1' as [|? ?]; [|cbn [R0] in HF'; tauto].
        exists v', (removelast F ++ [A']). split; [|split; [exact Sv|split; [apply R_root; [apply HF|apply HF|exact HF']|apply HF]]]. cbn [outer inner]. unfold bind. rewrite E. reflexivity.
      * destruct H as [x [s E]]. exists x, s. cbn [outer inner]. unfold bind. now rewrite E.
  - (* IValue *) intros F HF. specialize (Chk _ H0). unfold sound_inst in Chk. apply andb_true_iff in Chk as [_ Chk].
    exact (Memo (IValue x e) fs o (eval rt e VNone) H0 H1 (H Chk VNone VNone fs o SN H1 (or_introl H2)) F HF).
  - (* IAt *) pose proof (Chk _ H2) as Ch. unfold sound_inst in Ch. apply andb_true_iff in Ch as [_ Ch]. apply andb_true_iff in Ch as [Ch Ch3]. apply andb_true_iff in Ch as [Ch1 Ch2].
    intros F HF. destruct (R_cons _ _ HF) as [A [F1 [a [fs1 [-> ->]]]]].
    change (run_inst rt (IAt x cond pos en t) (A :: F1)) with (match lookup (cache x) A with Some v => ret (v, A :: F1) | None =>
      (c <~ eval rt cond VNone;; c <~ need_bool c;; if (c : bool) then back <~ io io_pos;; p <~ eval rt pos VNone;; p <~ need_int p;; _ <~ io (io_seek rt p);;
         v <~ run_ty rt "" en t;; v <~ present v;; _ <~ io (io_seek rt back);; _ <~ put (cache x) v;; kret v else kret VNone) (A :: F1) end).
    destruct (lookup (cache x) A) as [w|] eqn:L.
    + destruct HF as [[HA [HV HF]] N]. destruct (HV _ _ L) as [j [Hj [Ej [T V]]]]. assert (j = IAt x cond pos en t) as -> by auto. rewrite V. exists w, (A :: F1). split; [reflexivity|]. split; [split; [reflexivity|exact T]|]. split; [|exact N]. cbn [R0]. auto.
    + rewrite value_at. pose proof (H Ch1 VNone VNone (a :: fs1) o SN H3 (or_introl H4) _ HF) as Y. destruct (value b (span b o fin) (a :: fs1) VNone cond) as [v|] eqn:Vc; cbn [and_then].
      2: { destruct Y as [y [s E]]. exists y, s. unfold kbind at 1, bind. now rewrite E. }
      destruct Y as [v' [F' [E [Sv HF']]]]. rewrite (kbind_ok _ _ _ _ _ _ _ E). clear E. pose proof (y_bool o _ _ _ Sv _ HF') as Y. destruct (bool_of v) as [d|] eqn:Vd; cbn [and_then].
      2: { destruct Y as [y [s E]]. exists y, s. unfold kbind at 1, bind. now rewrite E. }
      destruct Y as [d' [F'' [E [-> HF'']]]]. rewrite (kbind_ok _ _ _ _ _ _ _ E). clear E HF'. destruct d.
      2: { exists VNone, F''. split; [reflexivity|]. split; [exact SN|exact HF'']. }
      assert (Hb : io_pos (at_ b 0 o) = (Ok (o / 8), at_ b 0 o)). { pose proof (run_io_pos b 0 o ltac:(lia) ltac:(lia)) as R. apply runM_ok in R. rewrite R. do 2 f_equal. lia. }
      rewrite (kbind_ok _ _ F'' (at_ b 0 o) (o / 8) F'' (at_ b 0 o)) by (unfold io, bind; rewrite Hb; reflexivity).
      pose proof (placed_sound pos Ch2) as Sp.
      pose proof (H0 Sp VNone VNone (a :: fs1) o SN H3 (or_introl H4) _ HF'') as Y.
      pose proof (placed_value pos (span b o fin) (a :: fs1) Ch2) as P.
      destruct P as [n [En Hn]]. rewrite En in Y |- *. cbn [and_then int_of]. destruct Y as [p' [G [E [[Sp' _] HG]]]]. rewrite (kbind_ok _ _ _ _ _ _ _ E). clear E. destruct p'; try discriminate. cbn [without_caches] in Sp'. assert (z = n) as -> by congruence.
      rewrite (kbind_ok _ _ G (at_ b 0 o) n G (at_ b 0 o)) by reflexivity.
      assert (K : exists p, 0 <= p /\ io_seek rt n (at_ b 0 o) = (Ok tt, at_ b p 0) /\ found b en t n = found b en t p).
      { destruct Hn as [Hn|[-> Hb0]]; [exists n; split; [exact Hn|]; split; [now apply seek_at|reflexivity]|]. exists 0. split; [lia|]. split; [exact (seek_at o 0 0 H4 ltac:(lia))|]. now apply found_nothing. }
      destruct K as [p [Hp [Es Ef]]]. rewrite (kbind_ok _ _ G (at_ b 0 o) tt G (at_ b p 0)) by (unfold io, bind; rewrite Es; reflexivity). rewrite Ef.
      pose proof (find_at en t p G Ch3 Hp) as Y. destruct (found b en t p) as [v0|] eqn:Vf.
      2: { destruct Y as [y [s E]]. exists y, s. unfold kbind at 1, bind. now rewrite E. }
      destruct Y as [S0 [q [Hq E]]]. rewrite (kbind_ok _ _ _ _ _ _ _ E). rewrite (kbind_ok _ _ G (at_ b q 0) v0 G (at_ b q 0)) by reflexivity.
      rewrite (kbind_ok _ _ G (at_ b q 0) tt G (at_ b 0 o)). 2: { unfold io, bind. rewrite (seek_at 0 q (o / 8) eq_refl) by lia. unfold ret. replace (at_ b (o / 8) 0) with (at_ b 0 o); [reflexivity|]. replace (o / 8) with (0 + o / 8) by lia. rewrite at_rebase by lia. f_equal. lia. }
      destruct (R_cons _ _ HG) as [A' [G1 [a' [fs1' [-> E']]]]]. injection E' as <- <-. exists v0, ((A' ++ [(cache x, v0)]) :: G1). split; [reflexivity|]. split; [exact S0|]. split; [|discriminate].
      destruct S0 as [Sv0 T0]. refine (R_cache A' G1 a fs1 (IAt x cond pos en t) v0 (proj1 HG) H2 T0 _). intros l. refine (proj2 (values_last b) (IAt x cond pos en t) _ (span b o fin) l _ _ _ (wider_refl _) _); [specialize (Chk _ H2); unfold sound_inst in Chk; now apply andb_true_iff in Chk as [K _]|].
      rewrite value_at, Vc. cbn [and_then]. rewrite Vd. cbn [and_then]. rewrite En. cbn [and_then int_of]. now rewrite Ef, Sv0.
Qed.

(** ** [exact m P]: from a byte boundary, [m] succeeds with value [v] exactly if the bits ahead are [l ++ rest] with [P fs v l rest]; it
    then stops behind [l] and leaves the objects under construction alone, up to caches. *)
Definition pred A := frames -> A -> list bool -> list bool -> Prop.
Definition fwd {A} (Q : A -> A -> Prop) (m : K A) (P : pred A) : Prop := forall o F fs v' F' s, 0 <= o <= fin -> o mod 8 = 0 -> RR F fs -> m F (at_ b 0 o) = (Ok (v', F'), s) ->
  exists v l rest, span b o fin = l ++ rest /\ Q v' v /\ P fs v l rest /\ RR F' fs /\ s = at_ b 0 (o + Z.of_nat (List.length l)).
Definition bwd {A} (Q : A -> A -> Prop) (m : K A) (P : pred A) : Prop := forall o F fs v l rest, 0 <= o <= fin -> o mod 8 = 0 -> RR F fs -> span b o fin = l ++ rest -> P fs v l rest ->
  Z.of_nat (List.length l) mod 8 = 0 /\ exists v' F', m F (at_ b 0 o) = (Ok (v', F'), at_ b 0 (o + Z.of_nat (List.length l))) /\ Q v' v /\ RR F' fs.
Definition exact {A} (Q : A -> A -> Prop) (m : K A) (P : pred A) : Prop := fwd Q m P /\ bwd Q m P.

Lemma split_span o l rest : 0 <= o <= fin -> span b o fin = l ++ rest ->
  0 <= o + Z.of_nat (List.length l) <= fin /\ l = span b o (o + Z.of_nat (List.length l)) /\ rest = span b (o + Z.of_nat (List.length l)) fin.
Proof.
  intros Ho E. assert (L : Z.of_nat (List.length l) + Z.of_nat (List.length rest) = fin - o). { apply (f_equal (@List.length bool)) in E. rewrite span_length, app_length in E. lia. }
  split; [lia|]. rewrite (span_app b o (o + Z.of_nat (List.length l)) fin) in E by lia. symmetry in E. apply app_inj in E as [E1 E2]; [now split|]. rewrite span_length. lia.
Qed.
Lemma nil_stay o : o + Z.of_nat (List.length (@nil bool)) = o. Proof. cbn. lia. Qed.
Lemma e_iff {A} (S : A -> A -> Prop) (m : K A) P Q : (forall fs v l rest, P fs v l rest <-> Q fs v l rest) -> exact S m P -> exact S m Q.
Proof.
  intros H [F1 B]. split.
  - intros o F fs v' F' s Ho Ha HF E. destruct (F1 _ _ _ _ _ _ Ho Ha HF E) as [v [l [rest [E1 [E2 [E3 E4]]]]]]. exists v, l, rest. split; [exact E1|]. split; [exact E2|]. split; [now apply H|exact E4].
  - intros o F fs v l rest Ho Ha HF E HQ. apply (B o F fs v l rest Ho Ha HF E). now apply H.
Qed.
Definition seq_pred {A B} (P : pred A) (Q : A -> pred B) : pred B := fun fs v l rest => exists a l1 l2, l = l1 ++ l2 /\ P fs a l1 (l2 ++ rest) /\ Q a fs v l2 rest.
Lemma e_bind {A B} (S : A -> A -> Prop) (S' : B -> B -> Prop) (m : K A) (k : A -> K B) P Q : exact S m P -> (forall a' a, S a' a -> exact S' (k a') (Q a)) -> exact S' (kbind m k) (seq_pred P Q).
Proof.
  intros [F1 B1] H2. split.
  - intros o F fs v' F' s Ho Ha HF E. apply kbind_inv in E as [a' [g [t [E1 E2]]]]. destruct (F1 _ _ _ _ _ _ Ho Ha HF E1) as [a [l1 [r1 [S1 [Sa [P1 [HG ->]]]]]]].
    destruct (B1 o F fs a l1 r1 Ho Ha HF S1 P1) as [M1 _]. destruct (split_span _ _ _ Ho S1) as [Ho1 [_ R1]].
    destruct (proj1 (H2 a' a Sa) _ _ _ _ _ _ Ho1 ltac:(lia) HG E2) as [v [l2 [rest [S2 [Sv [P2 [HF' ->]]]]]]]. exists v, (l1 ++ l2), rest. rewrite S1, R1, S2, app_assoc. split; [reflexivity|]. split; [exact Sv|]. split; [|split; [exact HF'|f_equal; rewrite app_length; lia]].
    exists a, l1, l2. split; [reflexivity|]. split; [|exact P2]. now rewrite <- S2, <- R1.
  - intros o F fs v l rest Ho Ha HF S0 [a [l1 [l2 [-> [P1 P2]]]]]. rewrite <- app_assoc in S0. destruct (B1 o F fs a l1 _ Ho Ha HF S0 P1) as [M1 [a' [G [E1 [Sa HG]]]]]. destruct (split_span _ _ _ Ho S0) as [Ho1 [_ R1]].
    destruct (proj2 (H2 a' a Sa) _ _ _ _ _ _ Ho1 ltac:(lia) HG (eq_sym R1) P2) as [M2 [v' [F' [E2 [Sv HF']]]]]. rewrite app_length, Nat2Z.inj_add. split; [lia|]. exists v', F'. split; [|now split]. rewrite (kbind_ok _ _ _ _ _ _ _ E1), E2. do 2 f_equal. lia.
Qed.
(** computations that read nothing *)
Definition still {A} (r : list bool -> frames -> option A) : pred A := fun fs v l rest => l = [] /\ r rest fs = Some v.
Lemma e_still {A} (S : A -> A -> Prop) (m : K A) r : (forall o fs, 0 <= o <= fin -> o mod 8 = 0 -> yields S o fs m (r (span b o fin) fs)) -> exact S m (still r).
Proof.
  intros H. split.
  - intros o F fs v' F' s Ho Ha HF E. specialize (H o fs Ho Ha F HF). destruct (r (span b o fin) fs) as [v|] eqn:Er.
    + destruct H as [w [G [E1 [Sv HG]]]]. rewrite E1 in E. injection E as -> -> <-. exists v, [], (span b o fin). rewrite nil_stay. split; [reflexivity|]. split; [exact Sv|]. split; [now split|]. now split.
    + destruct H as [x [t E1]]. rewrite E1 in E. discriminate.
  - intros o F fs v l rest Ho Ha HF S0 [-> Er]. cbn [app] in S0. specialize (H o fs Ho Ha F HF). rewrite S0, Er in H. rewrite nil_stay. split; [reflexivity|exact H].
Qed.
Lemma e_ret {A} (S : A -> A -> Prop) (a' a : A) : S a' a -> exact S (kret a') (still (fun _ _ => Some a)).
Proof. intros H. apply e_still. intros. now apply y_ret. Qed.
Lemma e_int v' v : SV v' v -> exact eq (need_int v') (still (fun _ _ => int_of v)).
Proof. intros H. apply e_still. intros. now apply y_int. Qed.
Lemma e_bool v' v : SV v' v -> exact eq (need_bool v') (still (fun _ _ => bool_of v)).
Proof. intros H. apply e_still. intros. now apply y_bool. Qed.
Lemma e_present v' v : SO v' v -> exact SV (present v') (still (fun _ _ => v)).
Proof. intros H. apply e_still. intros o fs _ _ F HF. destruct v' as [v'|], v as [v|]; cbn [SO] in H; try contradiction; [exists v', F; split; [reflexivity|now split]|do 2 eexists; reflexivity]. Qed.
Lemma e_eval e it' it : SV it' it -> sound env e = true -> exact SV (eval rt e it') (still (fun rest fs => value b rest fs it e)).
Proof. intros Hi N. apply e_still. intros. apply evaluates; auto. Qed.
Lemma int_of_iff v z : int_of v = Some z <-> v = VInt z. Proof. destruct v; cbn; split; congruence. Qed.
Lemma bool_of_iff v z : bool_of v = Some z <-> v = VBool z. Proof. destruct v; cbn; split; congruence. Qed.

(** ** Leaves *)
Definition fwdM {A} (m : M A) (P : A -> list bool -> list bool -> Prop) : Prop := forall o v s, 0 <= o <= fin -> o mod 8 = 0 -> m (at_ b 0 o) = (Ok v, s) ->
  exists l rest, span b o fin = l ++ rest /\ P v l rest /\ s = at_ b 0 (o + Z.of_nat (List.length l)).
Definition bwdM {A} (m : M A) (P : A -> list bool -> list bool -> Prop) : Prop := forall o v l rest, 0 <= o <= fin -> o mod 8 = 0 -> span b o fin = l ++ rest -> P v l rest ->
  Z.of_nat (List.length l) mod 8 = 0 /\ m (at_ b 0 o) = (Ok v, at_ b 0 (o + Z.of_nat (List.length l))).
Definition exactM {A} (m : M A) P := fwdM (A := A) m P /\ bwdM m P.
Lemma e_io {A} (S : A -> A -> Prop) (m : M A) P : exactM m P -> (forall v l rest, P v l rest -> S v v) -> exact S (io m) (fun _ v l rest => P v l rest).
Proof.
  intros [F1 B] HS. split.
  - intros o F fs v f s Ho Ha HF E. apply io_inv in E as [E ->]. destruct (F1 _ _ _ Ho Ha E) as [l [rest [E1 [E2 E3]]]]. exists v, l, rest. eauto 6.
  - intros o F fs v l rest Ho Ha HF E HP. destruct (B _ _ _ _ Ho Ha E HP) as [M1 E1]. split; [exact M1|]. exists v, F. split; [|eauto]. unfold io, bind. now rewrite E1.
Qed.
Lemma em_iff {A} (m : M A) P Q : (forall v l rest, P v l rest <-> Q v l rest) -> exactM m P -> exactM m Q.
Proof.
  intros H [F B]. split.
  - intros o v s Ho Ha E. destruct (F _ _ _ Ho Ha E) as [l [rest [E1 [E2 E3]]]]. exists l, rest. split; [exact E1|]. split; [now apply H|exact E3].
  - intros o v l rest Ho Ha E HQ. apply (B o v l rest Ho Ha E). now apply H.
Qed.
Lemma em_map {A B} (m : M A) (g : A -> B) P : exactM m P -> exactM (x <- m;; ret (g x)) (fun v l rest => exists a, v = g a /\ P a l rest).
Proof.
  intros [F B0]. split.
  - intros o v s Ho Ha E. apply bind_inv in E as [a [t [E1 E2]]]. unfold ret in E2. assert (v = g a) as -> by congruence. assert (t = s) as -> by congruence. destruct (F _ _ _ Ho Ha E1) as [l [rest [S1 [S2 S3]]]]. exists l, rest. eauto.
  - intros o v l rest Ho Ha E [a [-> HP]]. destruct (B0 _ _ _ _ Ho Ha E HP) as [M1 E1]. split; [exact M1|]. unfold bind. now rewrite E1.
Qed.
Lemma em_bytes n : exactM (read_bytes rt n) (fun x l _ => l = bytes_bits x /\ blen x = n).
Proof.
  split.
  - intros o v s Ho Ha E. apply (read_bytes_ok rt) in E as [N [L [X [E ->]]]]; [|lia|exact Ha]. assert (Eo : o = 8 * (o / 8)) by lia.
    exists (bytes_bits v), (span b (o + 8 * n) fin). rewrite (span_app b o (o + 8 * n) fin) by lia. split; [|split; [now split|f_equal; rewrite bytes_bits_length; unfold blen in E; lia]].
    f_equal. rewrite X, <- span_bytes by lia. f_equal; lia.
  - intros o v l rest Ho Ha S [-> E]. destruct (split_span _ _ _ Ho S) as [Ho1 [R1 _]]. rewrite bytes_bits_length in *. unfold blen in E. replace (Z.of_nat (8 * List.length v)) with (8 * n) in * by lia. split; [lia|].
    pose proof (run_read_bytes_var rt b 0 o n ltac:(lia) ltac:(lia) Ha ltac:(left; apply fits_iff; lia)) as R. destruct (Z.ltb_spec n 0); [lia|].
    destruct (Z.leb_spec (0 + o / 8 + n) (blen b)); [|lia]. unfold runM in R. destruct (read_bytes rt n (at_ b 0 o)) as [[x|x] t] eqn:E0; [|discriminate].
    apply (read_bytes_ok rt) in E0 as [_ [_ [-> [_ ->]]]]; [|lia|exact Ha]. do 2 f_equal. apply bytes_bits_inj. rewrite R1, <- span_bytes by lia. f_equal; lia.
Qed.
Lemma em_full : exactM (read_bytes_full rt) (fun x l rest => l = bytes_bits x /\ rest = []).
Proof.
  split.
  - intros o v s Ho Ha E. apply (read_full_ok rt) in E as [X ->]; [|lia|exact Ha]. assert (E : span b o fin = bytes_bits v) by (rewrite X, <- span_bytes by lia; f_equal; lia).
    exists (bytes_bits v), []. rewrite app_nil_r. split; [exact E|]. split; [now split|]. f_equal. rewrite <- E, span_length. lia.
  - intros o v l rest Ho Ha S [-> ->]. rewrite app_nil_r in S. pose proof (run_read_bytes_full rt b 0 o ltac:(lia) ltac:(lia) Ha ltac:(apply fits_iff; lia)) as R. rewrite <- S, span_length. split; [lia|].
    unfold runM in R. destruct (read_bytes_full rt (at_ b 0 o)) as [[x|x] t] eqn:E; [|discriminate]. apply (read_full_ok rt) in E as [-> ->]; [|lia|exact Ha]. f_equal; [|f_equal; lia]. f_equal. apply bytes_bits_inj. rewrite <- S, <- span_bytes by lia. f_equal; lia.
Qed.
Local Transparent slice.
Lemma slice_len k n : 0 <= k -> 0 <= n -> k + n <= blen b -> blen (slice b k n) = n.
Proof. intros Hk Hn Hl. unfold slice, blen in *. rewrite firstn_length, skipn_length. lia. Qed.
Local Opaque slice.
Local Transparent at_.
Lemma wf_at o : wf (at_ b 0 o).
Proof. unfold wf, at_. cbn [s_left s_bits]. split; [lia|]. apply ubits_bound. lia. Qed.
Definition bits_of (s : stream) : Z := 8 * Z.of_nat (s_pos s) - s_left s.
Lemma bits_of_at o : 0 <= o -> bits_of (at_ b 0 o) = o. Proof. intros H. unfold bits_of, at_. cbn [s_pos s_left]. lia. Qed.
Local Opaque at_.
Lemma em_number f : exactM (number rt f) (fun z l _ => l = int_bits f z /\ fst (range f) <= z < snd (range f)).
Proof.
  split.
  - intros o v s Ho Ha E. destruct (rm_number rt b f o v s Ho Ha E) as [o' [-> [L [A1 P1]]]]. exists (span b o o'), (span b o' fin). split; [apply span_app; lia|]. split; [split; [exact P1|]|f_equal; rewrite span_length; lia].
    pose proof (gm_number rt f (at_ b 0 o) (wf_at o)) as G. rewrite E in G. exact (proj2 G).
  - intros o v l rest Ho Ha S [-> Hr]. destruct (split_span _ _ _ Ho S) as [Ho1 [R1 _]]. rewrite int_bits_length in *. split; [destruct f; cbn; lia|].
    assert (R : exists z, number rt f (at_ b 0 o) = (Ok z, at_ b 0 (o + Z.of_nat (Z.to_nat (8 * int_size f))))).
    { assert (X : forall n, 0 <= n -> o + 8 * n <= fin -> read_bytes rt n (at_ b 0 o) = (Ok (slice b (o / 8) n), at_ b 0 (o + 8 * n))).
      { intros n Hn Hl. destruct (proj2 (em_bytes n) o (slice b (o / 8) n) (bytes_bits (slice b (o / 8) n)) (span b (o + 8 * n) fin) Ho Ha) as [_ E].
        - rewrite (span_app b o (o + 8 * n) fin) by lia. f_equal. rewrite <- span_bytes by lia. f_equal; lia.
        - split; [reflexivity|]. apply slice_len; lia.
        - rewrite E. do 2 f_equal. rewrite bytes_bits_length. pose proof (slice_len (o / 8) n ltac:(lia) ltac:(lia) ltac:(lia)) as L. unfold blen in L. lia. }
      assert (I : 0 < int_size f) by (destruct f; cbn; lia). specialize (X (int_size f) ltac:(lia) ltac:(lia)). replace (Z.of_nat (Z.to_nat (8 * int_size f))) with (8 * int_size f) by lia.
      destruct f; cbn [number int_size] in *; unfold read_u1, read_u2be, read_u2le, read_u4be, read_u4le, read_s2be, bind; rewrite X; eexists; reflexivity. }
    destruct R as [z R]. rewrite R. do 2 f_equal. destruct (rm_number rt b f o z _ Ho Ha R) as [o' [Eo [L [A1 P1]]]].
    assert (o' = o + Z.of_nat (Z.to_nat (8 * int_size f))) as ->. { apply (f_equal bits_of) in Eo. rewrite !bits_of_at in Eo by lia. lia. }
    pose proof (gm_number rt f (at_ b 0 o) (wf_at o)) as G. rewrite R in G. apply (int_bits_inj f); [exact (proj2 G)|exact Hr|]. rewrite <- P1. symmetry. exact R1.
Qed.
Lemma em_enum en (m : M Z) (P : Z -> list bool -> list bool -> Prop) : exactM m P -> exactM (as_enum en m) (fun v l rest => exists z, v = numeral en z /\ P z l rest).
Proof. intros H. destruct en as [E|]; cbn [as_enum numeral]; unfold venum, vint; now apply em_map. Qed.
Lemma em_decode c (m : M bytes) (P : bytes -> list bool -> list bool -> Prop) : exactM m P -> exactM (x <- m;; lift (py_decode c x)) (fun s l rest => exists x, encode_text c s = Some x /\ P x l rest).
Proof.
  intros [F B0]. split.
  - intros o v s Ho Ha E. apply bind_inv in E as [a [t [E1 E2]]]. destruct (F _ _ _ Ho Ha E1) as [l [rest [S1 [S2 S3]]]]. unfold lift in E2. exists l, rest. split; [exact S1|]. split; [|congruence].
    exists a. split; [|exact S2]. unfold py_decode in E2. destruct (decode_text c a) as [z|] eqn:D; [|discriminate]. assert (z = v) as -> by congruence. now apply decode_encode.
  - intros o v l rest Ho Ha E [x [Ex HP]]. destruct (B0 _ _ _ _ Ho Ha E HP) as [M1 E1]. split; [exact M1|]. unfold bind, lift, py_decode. rewrite E1, (encode_decode _ _ _ Ex). reflexivity.
Qed.
Lemma em_ext {A} (m m' : M A) P : (forall s, m s = m' s) -> exactM m P -> exactM m' P.
Proof.
  intros H [F B0]. split.
  - intros o v s Ho Ha E. rewrite <- H in E. exact (F _ _ _ Ho Ha E).
  - intros o v l rest Ho Ha E HP. rewrite <- H. exact (B0 _ _ _ _ Ho Ha E HP).
Qed.
Lemma em_expect x loc : exactM (expect_bytes rt x loc) (fun v l _ => v = VBytes x /\ l = bytes_bits x).
Proof.
  destruct (em_bytes (blen x)) as [F B0]. split.
  - intros o v s Ho Ha E. unfold expect_bytes in E. apply bind_inv in E as [y [t [E1 E2]]]. destruct (F _ _ _ Ho Ha E1) as [l [rest [S1 [[-> S2] S3]]]]. destruct (bytes_eqb y x) eqn:Eb; [|discriminate]. apply bytes_eqb_true in Eb. subst y. unfold ret in E2.
    exists (bytes_bits x), rest. split; [exact S1|]. split; [split; [congruence|reflexivity]|congruence].
  - intros o v l rest Ho Ha E [-> ->]. destruct (B0 o x _ rest Ho Ha E (conj eq_refl eq_refl)) as [M1 E1]. split; [exact M1|]. unfold expect_bytes, bind. rewrite E1, bytes_eqb_refl. reflexivity.
Qed.


(** ** Combinations *)
Lemma e_then {A B} (S : A -> A -> Prop) (S' : B -> B -> Prop) (m : K A) (k : A -> K B) r Q : exact S m (still r) -> (forall a' a, S a' a -> exact S' (k a') (Q a)) -> exact S' (kbind m k) (fun fs v l rest => exists a, r (l ++ rest) fs = Some a /\ Q a fs v l rest).
Proof.
  intros H1 H2. eapply e_iff; [|eapply e_bind; [exact H1|exact H2]]. intros fs v l rest. unfold seq_pred, still. split.
  - intros [a [l1 [l2 [-> [[-> HP] HQ]]]]]. exists a. now split.
  - intros [a [HP HQ]]. exists a, [], l. auto.
Qed.
Lemma e_map {A B} (S : A -> A -> Prop) (S' : B -> B -> Prop) (m : K A) (g : A -> B) P : (forall a' a, S a' a -> S' (g a') (g a)) -> exact S m P -> exact S' (v <~ m;; kret (g v)) (fun fs w l rest => exists v, w = g v /\ P fs v l rest).
Proof.
  intros HS H. eapply e_iff; [|eapply e_bind; [exact H|intros a' a Ha; apply (e_ret S' (g a') (g a)); auto]]. intros fs v l rest. unfold seq_pred, still. split.
  - intros [a [l1 [l2 [-> [HP [-> E]]]]]]. rewrite app_nil_r. cbn [app] in HP. exists a. split; [congruence|exact HP].
  - intros [a [-> HP]]. exists a, l, []. rewrite app_nil_r. auto.
Qed.
Lemma e_some (m : M pyval) P : exactM m P -> (forall v l rest, P v l rest -> SV v v) -> exact SO (v <~ io m;; kret (Some v)) (fun _ w l rest => exists v, w = Some v /\ P v l rest).
Proof. intros H HS. refine (e_map SV SO _ Some _ _ (e_io SV _ _ H HS)). auto. Qed.
Lemma e_sized e (m : Z -> M pyval) P : sound env e = true -> (forall n, exactM (m n) (P n)) -> (forall n v l rest, P n v l rest -> SV v v) ->
  exact SO (n <~ eval rt e VNone;; n <~ need_int n;; v <~ io (m n);; kret (Some v)) (fun fs w l rest => exists n v, value b (l ++ rest) fs VNone e = Some (VInt n) /\ w = Some v /\ P n v l rest).
Proof.
  intros N H HS. eapply e_iff; [|eapply (e_then SV SO); [apply (e_eval e VNone VNone); [flat|exact N]|intros v' v Sv; eapply (e_then eq SO); [apply (e_int v' v Sv)|intros n ? <-; apply (e_some (m n) (P n)); eauto]]]. cbv beta. intros fs v l rest. split.
  - intros [a [Ea [n [En [w [-> Hw]]]]]]. apply int_of_iff in En as ->. eauto.
  - intros [n [w [Ea [-> Hw]]]]. exists (VInt n). split; [exact Ea|]. exists n. split; [reflexivity|]. eauto.
Qed.
Lemma e_present1 m P : exact SO m P -> exact SV (v <~ m;; present v) (fun fs v l rest => P fs (Some v) l rest).
Proof.
  intros H. eapply e_iff; [|eapply (e_bind SO SV); [exact H|intros a' a Ha; apply (e_present a' a Ha)]]. intros fs v l rest. unfold seq_pred, still. split.
  - intros [a [l1 [l2 [-> [HP [-> ->]]]]]]. rewrite app_nil_r. exact HP.
  - intros HP. exists (Some v), l, []. rewrite app_nil_r. auto.
Qed.

(** ** Loops *)
Section Loops.
Context (en : option enumdef) (t : ty) (body : K pyval).
Hypothesis Hb : exact SV body (fun fs v l rest => made b fs en t (Some v) l rest).
Lemma l_times n : exact SL (times body n) (fun fs vs l rest => List.length vs = n /\ made_times b fs en t vs l rest).
Proof.
  induction n as [|n IH]; cbn [times].
  - eapply e_iff; [|apply (e_ret SL [] []); constructor]. intros fs vs l rest. unfold still. split; [intros [-> E]; assert (vs = []) as -> by congruence; split; [reflexivity|constructor]|]. intros [L H]. destruct vs; [|discriminate]. inversion H; subst. now split.
  - change (v <~ body;; l <~ times body n;; kret (v :: l)) with (v <~ body;; (fun v => l <~ times body n;; kret (v :: l)) v).
    eapply e_iff; [|eapply (e_bind SV SL body (fun v => l <~ times body n;; kret (v :: l)) _ (fun v fs w l rest => exists vs, w = v :: vs /\ List.length vs = n /\ made_times b fs en t vs l rest)); [exact Hb|]].
    + intros fs vs l rest. unfold seq_pred. split.
      * intros [v [l1 [l2 [-> [H1 [vs' [-> [L H2]]]]]]]]. split; [cbn [List.length]; lia|]. now constructor.
      * intros [L H]. destruct vs as [|v vs]; [discriminate|]. inversion H; subst. exists v, l0, ls. split; [reflexivity|]. split; [assumption|]. exists vs. split; [reflexivity|]. split; [cbn [List.length] in L; lia|assumption].
    + intros v' v Sv. split.
      * intros o F fs w' F' s Ho Ha HF E. apply kbind_inv in E as [l' [G [s1 [E1 E2]]]]. apply kret_inv in E2 as [-> [-> ->]]. destruct (proj1 IH _ _ _ _ _ _ Ho Ha HF E1) as [vs [l [rest [S0 [Sl [P0 [HG ->]]]]]]]. exists (v :: vs), l, rest. split; [exact S0|]. split; [now constructor|]. split; [exists vs; tauto|auto].
      * intros o F fs w l rest Ho Ha HF S0 [vs [-> P0]]. destruct (proj2 IH o F fs vs l rest Ho Ha HF S0 P0) as [M1 [l' [G [E [Sl HG]]]]]. split; [exact M1|]. exists (v' :: l'), G. split; [rewrite (kbind_ok _ _ _ _ _ _ _ E); reflexivity|]. split; [now constructor|exact HG].
Qed.
Lemma stuck_eof o F fs v rest n : 0 <= o <= fin -> o mod 8 = 0 -> span b o fin = [] ++ rest -> rest <> [] -> RR F fs -> made b fs en t (Some v) [] rest -> exists e s, until_eof rt body n F (at_ b 0 o) = (Err e, s).
Proof.
  intros Ho Ha S0 Hn HF Hm. revert F HF. induction n as [|n IH]; intros F HF; cbn [until_eof]; [do 2 eexists; reflexivity|].
  destruct (proj2 Hb o F fs v [] rest Ho Ha HF S0 Hm) as [_ [v' [G [E [_ HG]]]]]. rewrite nil_stay in E. destruct (IH G HG) as [e [s IH']].
  exists e, s. rewrite (kbind_ok _ _ F (at_ b 0 o) false F (at_ b 0 o)); [|unfold io, bind; rewrite eof_at by assumption; rewrite S0; cbn [app]; destruct rest; [contradiction|reflexivity]].
  rewrite (kbind_ok _ _ _ _ _ _ _ E). unfold kbind, bind. now rewrite IH'.
Qed.
Lemma f_eof n : fwd SL (until_eof rt body n) (fun fs vs l rest => made_all b fs en t vs l /\ rest = []).
Proof.
  induction n as [|n IH]; intros o F fs vs' F' s Ho Ha HF E; cbn [until_eof] in E; [discriminate|]. apply kbind_inv in E as [e [g [s0 [E0 E]]]]. apply io_inv in E0 as [E0 ->]. rewrite eof_at in E0 by assumption. assert (s0 = at_ b 0 o) as -> by congruence.
  destruct (span b o fin) as [|i r] eqn:Es.
  - assert (e = true) as -> by congruence. apply kret_inv in E as [-> [-> ->]]. exists [], [], []. split; [reflexivity|]. split; [constructor|]. split; [split; [constructor|reflexivity]|]. split; [exact HF|]. now rewrite nil_stay.
  - assert (e = false) as -> by congruence. apply kbind_inv in E as [v' [g [s0 [E1 E]]]]. destruct (proj1 Hb _ _ _ _ _ _ Ho Ha HF E1) as [v [l1 [r1 [S1 [Sv [P1 [HG ->]]]]]]]. destruct (proj2 Hb o F fs v l1 r1 Ho Ha HF S1 P1) as [M1 _]. destruct (split_span _ _ _ Ho S1) as [Ho1 [_ R1]].
    apply kbind_inv in E as [vs'' [g' [s0 [E2 E3]]]]. apply kret_inv in E3 as [-> [-> ->]].
    assert (Hl : l1 <> []).
    { intros ->. rewrite nil_stay in *. destruct (stuck_eof o g fs v r1 n Ho Ha S1 ltac:(cbn [app] in S1; congruence) HG P1) as [e [s Es']]. congruence. }
    destruct (IH _ _ _ _ _ _ Ho1 ltac:(lia) HG E2) as [vs [l2 [r2 [S2 [Sl [[P2 ->] [HF' ->]]]]]]]. rewrite app_nil_r in S2. rewrite S2 in R1. subst r1. exists (v :: vs), (l1 ++ l2), []. rewrite app_nil_r. split; [congruence|]. split; [now constructor|]. split; [split; [now constructor|reflexivity]|]. split; [exact HF'|]. f_equal. rewrite app_length. lia.
Qed.
Lemma b_eof n : forall o F fs vs l, 0 <= o <= fin -> o mod 8 = 0 -> RR F fs -> span b o fin = l -> made_all b fs en t vs l -> Z.of_nat (List.length l) < 8 * Z.of_nat n ->
  exists vs' F', until_eof rt body n F (at_ b 0 o) = (Ok (vs', F'), at_ b 0 (o + Z.of_nat (List.length l))) /\ SL vs' vs /\ RR F' fs.
Proof.
  induction n as [|n IH]; intros o F fs vs l Ho Ha HF S0 H L; [lia|]. cbn [until_eof].
  rewrite (kbind_ok _ _ F (at_ b 0 o) (match l with [] => true | _ => false end) F (at_ b 0 o)); [|unfold io, bind; rewrite eof_at by assumption; now rewrite S0].
  revert S0 L. inversion H; subst; intros S0 L.
  - exists [], F. rewrite nil_stay. split; [reflexivity|]. split; [constructor|exact HF].
  - rename l0 into l1, ls into l2. destruct l1 as [|i l1]; [contradiction|]. cbn [app]. change ((i :: l1 ++ l2)) with ((i :: l1) ++ l2) in *.
    match goal with X : made _ _ _ _ _ _ _, Y : made_all _ _ _ _ _ l2 |- _ => destruct (proj2 Hb o F fs v (i :: l1) l2 Ho Ha HF S0 X) as [M1 [v' [G [E1 [Sv HG]]]]]; rename Y into Hr end. destruct (split_span _ _ _ Ho S0) as [Ho1 [_ R1]].
    rewrite (kbind_ok _ _ _ _ _ _ _ E1). rewrite app_length in L. destruct (IH _ _ _ _ _ Ho1 ltac:(lia) HG (eq_sym R1) Hr ltac:(cbn [List.length] in M1, L |- *; lia)) as [vs'' [F' [E2 [Sl HF']]]]. exists (v' :: vs''), F'. split; [|split; [now constructor|exact HF']]. rewrite (kbind_ok _ _ _ _ _ _ _ E2). unfold kret, ret. do 2 f_equal. rewrite app_length. lia.
Qed.
Context (e : expr) (stop : pyval -> K bool).
Hypothesis He : forall v' v, SV v' v -> exact eq (stop v') (fun fs w l rest => l = [] /\ value b rest fs v e = Some (VBool w)).
Lemma stuck_until o F fs v rest n : 0 <= o <= fin -> o mod 8 = 0 -> span b o fin = [] ++ rest -> RR F fs -> made b fs en t (Some v) [] rest -> value b rest fs v e = Some (VBool false) -> exists x s, until body stop n F (at_ b 0 o) = (Err x, s).
Proof.
  intros Ho Ha S0 HF Hm Hv. revert F HF. induction n as [|n IH]; intros F HF; cbn [until]; [do 2 eexists; reflexivity|].
  destruct (proj2 Hb o F fs v [] rest Ho Ha HF S0 Hm) as [_ [v' [G [E [Sv HG]]]]]. rewrite nil_stay in E. destruct (proj2 (He v' v Sv) o G fs false [] rest Ho Ha HG S0 (conj eq_refl Hv)) as [_ [w [G' [E2 [Sw HG']]]]]. rewrite nil_stay in E2. subst w.
  destruct (IH G' HG') as [x [s IH']]. exists x, s. rewrite (kbind_ok _ _ _ _ _ _ _ E), (kbind_ok _ _ _ _ _ _ _ E2). unfold kbind, bind. now rewrite IH'.
Qed.
Lemma f_until n : fwd SL (until body stop n) (fun fs vs l rest => made_until b fs en t e vs l rest).
Proof.
  induction n as [|n IH]; intros o F fs vs' F' s Ho Ha HF E; cbn [until] in E; [discriminate|]. apply kbind_inv in E as [v' [g [s0 [E1 E]]]]. destruct (proj1 Hb _ _ _ _ _ _ Ho Ha HF E1) as [v [l1 [r1 [S1 [Sv [P1 [HG ->]]]]]]].
  destruct (proj2 Hb o F fs v l1 r1 Ho Ha HF S1 P1) as [M1 _]. destruct (split_span _ _ _ Ho S1) as [Ho1 [_ R1]]. apply kbind_inv in E as [d [g2 [s0 [E2 E]]]].
  destruct (proj1 (He v' v Sv) _ _ _ _ _ _ Ho1 ltac:(lia) HG E2) as [d' [l2 [r2 [S2 [<- [[-> P2] [HG2 ->]]]]]]]. cbn [app] in S2. rewrite nil_stay in *. rewrite <- R1 in S2. subst r2. destruct d.
  - apply kret_inv in E as [-> [-> ->]]. exists [v], l1, r1. split; [exact S1|]. split; [constructor; [exact Sv|constructor]|]. split; [now constructor|]. now split.
  - apply kbind_inv in E as [vs'' [g3 [s0 [E3 E4]]]]. apply kret_inv in E4 as [-> [-> ->]].
    assert (Hl : l1 <> []).
    { intros ->. rewrite nil_stay in *. destruct (stuck_until o g2 fs v r1 n Ho Ha S1 HG2 P1 P2) as [x [s Es']]. congruence. }
    destruct (IH _ _ _ _ _ _ Ho1 ltac:(lia) HG2 E3) as [vs [l2 [r2 [S3 [Sl [P3 [HF' ->]]]]]]]. exists (v :: vs), (l1 ++ l2), r2. rewrite S1, R1, S3, app_assoc. split; [reflexivity|]. split; [now constructor|]. split; [|split; [exact HF'|f_equal; rewrite app_length; lia]].
    assert (r1 = l2 ++ r2) as -> by congruence. now constructor.
Qed.
Lemma b_until n : forall o F fs vs l rest, 0 <= o <= fin -> o mod 8 = 0 -> RR F fs -> span b o fin = l ++ rest -> made_until b fs en t e vs l rest -> Z.of_nat (List.length l) < 8 * Z.of_nat n ->
  Z.of_nat (List.length l) mod 8 = 0 /\ exists vs' F', until body stop n F (at_ b 0 o) = (Ok (vs', F'), at_ b 0 (o + Z.of_nat (List.length l))) /\ SL vs' vs /\ RR F' fs.
Proof.
  induction n as [|n IH]; intros o F fs vs l rest Ho Ha HF S0 H L; [lia|]. cbn [until]. inversion H; subst.
  - destruct (proj2 Hb o F fs v l rest Ho Ha HF S0 H0) as [M1 [v' [G [E1 [Sv HG]]]]]. split; [exact M1|]. destruct (split_span _ _ _ Ho S0) as [Ho1 [_ R1]]. rewrite (kbind_ok _ _ _ _ _ _ _ E1).
    destruct (proj2 (He v' v Sv) _ G fs true [] rest Ho1 ltac:(lia) HG (eq_sym R1) (conj eq_refl H1)) as [_ [d [G2 [E2 [-> HG2]]]]]. rewrite nil_stay in E2. exists [v'], G2. split; [rewrite (kbind_ok _ _ _ _ _ _ _ E2); reflexivity|]. split; [constructor; [exact Sv|constructor]|exact HG2].
  - rename l0 into l1, ls into l2. rewrite <- app_assoc in S0. destruct (proj2 Hb o F fs v l1 (l2 ++ rest) Ho Ha HF S0 H1) as [M1 [v' [G [E1 [Sv HG]]]]]. destruct (split_span _ _ _ Ho S0) as [Ho1 [_ R1]]. rewrite (kbind_ok _ _ _ _ _ _ _ E1).
    destruct (proj2 (He v' v Sv) _ G fs false [] (l2 ++ rest) Ho1 ltac:(lia) HG (eq_sym R1) (conj eq_refl H2)) as [_ [d [G2 [E2 [-> HG2]]]]]. rewrite nil_stay in E2. rewrite (kbind_ok _ _ _ _ _ _ _ E2). rewrite app_length in L.
    destruct l1 as [|i l1]; [contradiction|]. destruct (IH _ _ _ _ _ _ Ho1 ltac:(lia) HG2 (eq_sym R1) H3 ltac:(cbn [List.length] in M1, L |- *; lia)) as [M2 [vs' [F' [E3 [Sl HF']]]]]. rewrite app_length. split; [lia|]. exists (v' :: vs'), F'. split; [|split; [now constructor|exact HF']]. rewrite (kbind_ok _ _ _ _ _ _ _ E3). unfold kret, ret. do 2 f_equal. lia.
Qed.
End Loops.
Lemma buf_at o : s_buf (at_ b 0 o) = b. Proof. reflexivity. Qed.
Lemma l_eof en t body : exact SV body (fun fs v l rest => made b fs en t (Some v) l rest) -> exact SL (turns (until_eof rt body)) (fun fs vs l rest => made_all b fs en t vs l /\ rest = []).
Proof.
  intros Hb. split.
  - intros o F fs v F' s Ho Ha HF E. unfold turns in E. exact (f_eof en t body Hb _ _ _ _ _ _ _ Ho Ha HF E).
  - intros o F fs v l rest Ho Ha HF S0 [H ->]. rewrite app_nil_r in S0. split; [rewrite <- S0, span_length; lia|]. unfold turns. apply (b_eof en t body Hb); try assumption. rewrite buf_at, <- S0, span_length. unfold blen. lia.
Qed.
Lemma l_until en t body e stop : exact SV body (fun fs v l rest => made b fs en t (Some v) l rest) -> (forall v' v, SV v' v -> exact eq (stop v') (fun fs w l rest => l = [] /\ value b rest fs v e = Some (VBool w))) ->
  exact SL (turns (until body stop)) (fun fs vs l rest => made_until b fs en t e vs l rest).
Proof.
  intros Hb He. split.
  - intros o F fs v F' s Ho Ha HF E. unfold turns in E. exact (f_until en t body Hb e stop He _ _ _ _ _ _ _ Ho Ha HF E).
  - intros o F fs v l rest Ho Ha HF S0 H. unfold turns. apply (b_until en t body Hb e stop He _ o F fs v l rest); try assumption. rewrite buf_at. destruct (split_span _ _ _ Ho S0) as [Ho1 _]. unfold blen in *. lia.
Qed.
Lemma SL_list l' l : SL l' l -> SO (Some (VList l')) (Some (VList l)).
Proof.
  intros H. cbn [SO]. assert (X : map without_caches l' = l /\ forallb (tidy ns) l' = true). { induction H as [|x y l' l [H1 H2] H IH]; [now split|]. destruct IH as [IH1 IH2]. cbn [map forallb]. rewrite H1, H2, IH1. now split. }
  destruct X as [<- X]. split; [reflexivity|exact X].
Qed.
Lemma l_rep r en t one : match r with Times e | Until e => sound env e = true | _ => True end -> exact SO one (fun fs v l rest => made b fs en t v l rest) -> exact SO (run_rep rt one r) (fun fs v l rest => made_attr b fs r en t v l rest).
Proof.
  intros N H. destruct r as [| |e|e].
  - cbn [run_rep]. eapply e_iff; [|exact H]. intros fs v l rest. split; [now constructor|]. intros X. now inversion X.
  - cbn [run_rep]. eapply e_iff; [|eapply (e_map SL SO _ (fun l => Some (VList l))); [exact SL_list|]; apply (l_eof en t), (e_present1 _ _ H)]. intros fs v l rest. split.
    + intros [vs [-> [X ->]]]. now constructor.
    + intros X. inversion X; subst. eauto.
  - change (exact SO (n <~ eval rt e VNone;; n <~ need_int n;; l <~ times (v <~ one;; present v) (Z.to_nat n);; kret (Some (VList l))) (fun fs v l rest => made_attr b fs (Times e) en t v l rest)).
    eapply e_iff; [|eapply (e_then SV SO); [apply (e_eval e VNone VNone); [flat|exact N]|intros w' w Sw; eapply (e_then eq SO); [apply (e_int w' w Sw)|intros n ? <-; eapply (e_map SL SO _ (fun l => Some (VList l))); [exact SL_list|]; apply (l_times en t), (e_present1 _ _ H)]]]. cbv beta. intros fs v l rest. split.
    + intros [w [Ew [n [En [vs [-> [L X]]]]]]]. apply int_of_iff in En as ->. econstructor; eassumption.
    + intros X. inversion X; subst. exists (VInt n). split; [assumption|]. exists n. split; [reflexivity|]. eauto.
  - change (exact SO (l <~ turns (until (v <~ one;; present v) (fun v => w <~ eval rt e v;; need_bool w));; kret (Some (VList l))) (fun fs v l rest => made_attr b fs (Until e) en t v l rest)).
    eapply e_iff; [|eapply (e_map SL SO _ (fun l => Some (VList l))); [exact SL_list|]; apply (l_until en t _ e); [apply (e_present1 _ _ H)|]].
    + intros fs v l rest. split; [intros [vs [-> X]]; now constructor|]. intros X. inversion X; subst. eauto.
    + intros v' v Sv. eapply e_iff; [|eapply (e_then SV eq); [apply (e_eval e v' v Sv); exact N|intros w' w Sw; apply (e_bool w' w Sw)]]. cbv beta. intros fs w l rest. unfold still. split.
      * intros [x [Ex [-> Eb]]]. apply bool_of_iff in Eb as ->. now split.
      * intros [-> Ex]. exists (VBool w). auto.
Qed.

(** ** Bit fields, at any place *)
Lemma bits_exact n o : 0 < n -> 0 <= o <= fin -> forall z s, read_bits n (at_ b 0 o) = (Ok z, s) <-> (exists l rest, span b o fin = l ++ rest /\ 0 <= z < 2 ^ n /\ l = msb (Z.to_nat n) z) /\ s = at_ b 0 (o + n).
Proof.
  intros Hn Ho z s. split.
  - intros E. apply bits_ok in E as [-> [-> L]]; [|exact Hn|exact Ho]. split; [|reflexivity]. exists (span b o (o + n)), (span b (o + n) fin). split; [apply span_app; lia|]. split; [apply ubits_bound; lia|]. apply span_msb. lia.
  - intros [[l [rest [S [Hz ->]]]] ->]. destruct (split_span _ _ _ Ho S) as [Ho1 [R1 _]]. rewrite msb_length in *. replace (Z.of_nat (Z.to_nat n)) with n in * by lia.
    pose proof (run_read_bits b 0 o n ltac:(lia) ltac:(lia) Hn ltac:(right; apply fits_iff; lia)) as R. assert (F : fits b 0 (o + n) = true) by (apply fits_iff; lia). rewrite F in R. unfold runM in R.
    destruct (read_bits n (at_ b 0 o)) as [[x|x] t]; [|discriminate]. assert (t = at_ b 0 (o + n)) as -> by congruence. do 2 f_equal. assert (x = ubits b o n) as -> by (change (8 * 0 + o) with o in R; congruence).
    rewrite span_msb in R1 by lia. apply msb_inj in R1; replace (Z.of_nat (Z.to_nat n)) with n by lia; [congruence|exact Hz|apply ubits_bound; lia].
Qed.
Definition at_bits (fs : frames) (en : option enumdef) (t : ty) (n o : Z) (v : option pyval) : Prop := exists l rest, span b o fin = l ++ rest /\ Z.of_nat (List.length l) = n /\ made b fs en t v l rest.
Lemma bit_exact t n loc en o F0 fs v f s : width t = Some n -> 0 <= o <= fin -> run_ty rt loc en t F0 (at_ b 0 o) = (Ok (v, f), s) <-> at_bits fs en t n o v /\ f = F0 /\ s = at_ b 0 (o + n).
Proof.
  intros W Ho.
  assert (Bits : forall k, (if 0 <? k then Some k else None) = Some n -> forall w g s, run_ty rt loc en (TBits k) F0 (at_ b 0 o) = (Ok (w, g), s) <-> at_bits fs en (TBits k) n o w /\ g = F0 /\ s = at_ b 0 (o + n)).
  { intros k. destruct (Z.ltb_spec 0 k) as [Hk|]; [|discriminate]. intros E w g s1. assert (k = n) as -> by congruence. cbn [run_ty].
    assert (X : forall y s2, as_enum en (read_bits n) (at_ b 0 o) = (Ok y, s2) <-> exists z, y = numeral en z /\ read_bits n (at_ b 0 o) = (Ok z, s2)).
    { intros y s2. destruct en as [E'|]; cbn [as_enum numeral]; unfold venum, vint, bind, ret; destruct (read_bits n (at_ b 0 o)) as [[z|z] t0]; (split; [intros X|intros [z' [-> X]]]); try discriminate; try (exists z; split; congruence); congruence. }
    split.
    - intros R. apply kbind_inv in R as [y [g0 [t0 [R1 R2]]]]. apply kret_inv in R2 as [-> [-> <-]]. apply io_inv in R1 as [R1 ->]. apply X in R1 as [z [-> R1]]. apply bits_exact in R1 as [[l [rest [S [Hz ->]]]] ->]; [|exact Hk|exact Ho].
      split; [|now split]. exists (msb (Z.to_nat n) z), rest. split; [exact S|]. split; [rewrite msb_length; lia|]. now constructor.
    - intros [[l [rest [S [L M]]]] [-> ->]]. revert L. inversion M; subst. intros L.
      rewrite (kbind_ok _ _ F0 (at_ b 0 o) (numeral en z) F0 (at_ b 0 (o + n))); [reflexivity|]. unfold io, bind.
      rewrite (proj2 (X (numeral en z) (at_ b 0 (o + n)))); [reflexivity|]. exists z. split; [reflexivity|]. apply bits_exact; [exact Hk|exact Ho|]. split; [|reflexivity]. exists (msb (Z.to_nat n) z), rest. auto. }
  destruct t as [k| | | | | | | |t z| | | |]; try discriminate; cbn [width] in W.
  - exact (Bits k W v f s).
  - assert (n = 1) as -> by congruence. cbn [run_ty].
    assert (X : forall y s2, vflag (at_ b 0 o) = (Ok y, s2) <-> exists z, y = VBool (negb (z =? 0)) /\ read_bits 1 (at_ b 0 o) = (Ok z, s2)).
    { intros y s2. unfold vflag, read_flag, bind, ret. destruct (read_bits 1 (at_ b 0 o)) as [[z|z] t0]; (split; [intros X|intros [z' [-> X]]]); try discriminate; try (exists z; split; congruence); congruence. }
    split.
    + intros R. apply kbind_inv in R as [y [g0 [t0 [R1 R2]]]]. apply kret_inv in R2 as [-> [-> <-]]. apply io_inv in R1 as [R1 ->]. apply X in R1 as [z [-> R1]]. apply bits_exact in R1 as [[l [rest [S [Hz ->]]]] ->]; [|lia|exact Ho].
      split; [|now split]. exists (msb 1 z), rest. split; [exact S|]. split; [reflexivity|]. change (2 ^ 1) with 2 in Hz. assert (z = 0 \/ z = 1) as [-> | ->] by lia; constructor.
    + intros [[l [rest [S [L M]]]] [-> ->]]. inversion M; subst.
      rewrite (kbind_ok _ _ F0 (at_ b 0 o) (VBool x) F0 (at_ b 0 (o + 1))); [reflexivity|]. unfold io, bind. rewrite (proj2 (X (VBool x) (at_ b 0 (o + 1)))); [reflexivity|]. exists (Z.b2z x). split; [destruct x; reflexivity|].
      apply bits_exact; [lia|exact Ho|]. split; [|reflexivity]. exists [x], rest. split; [exact S|]. split; [destruct x; cbn; lia|destruct x; reflexivity].
  - destruct t as [k| | | | | | | | | | | |]; try discriminate.
    change (run_ty rt loc en (TValid (TBits k) z)) with (v <~ run_ty rt loc en (TBits k);; v <~ present v;; n <~ need_int v;; if n =? z then kret (Some v) else fun _ => fail (ValidationNotEqualError (VInt z) v loc)).
    split.
    + intros R. apply kbind_inv in R as [y [g [t0 [R1 R]]]]. apply (Bits k W) in R1 as [[l [rest [S [L M]]]] [-> ->]]. apply kbind_inv in R as [y' [g [t0 [R1 R]]]]. apply present_inv in R1 as [-> [-> ->]]. apply kbind_inv in R as [y [g [t0 [R1 R]]]]. apply need_int_inv in R1 as [-> [-> ->]].
      destruct (Z.eqb_spec y z) as [->|]; [|discriminate]. apply kret_inv in R as [-> [-> ->]]. split; [|now split]. exists l, rest. split; [exact S|]. split; [exact L|]. now constructor.
    + intros [[l [rest [S [L M]]]] [-> ->]]. inversion M; subst. rewrite (kbind_ok _ _ _ _ (Some (VInt z)) F0 (at_ b 0 (o + Z.of_nat (List.length l)))); [|apply (Bits k W); split; [exists l, rest; auto|now split]].
      rewrite (kbind_ok _ _ _ _ (VInt z) F0 (at_ b 0 (o + Z.of_nat (List.length l)))) by reflexivity. rewrite (kbind_ok _ _ _ _ z F0 (at_ b 0 (o + Z.of_nat (List.length l)))) by reflexivity. rewrite Z.eqb_refl. reflexivity.
Qed.
Lemma bits_same t n fs en v l rest : width t = Some n -> made b fs en t v l rest -> SO v v /\ Z.of_nat (List.length l) = n.
Proof.
  intros W M1. destruct t as [k| | | | | | | |t z| | | |]; try discriminate; cbn [width] in W.
  - inversion M1; subst. split; [cbn [SO]; apply numeral_SV|]. rewrite msb_length. destruct (Z.ltb_spec 0 k); [|discriminate]. assert (k = n) by congruence. lia.
  - inversion M1; subst. split; [flat|]. cbn [List.length]. assert (n = 1) by congruence. lia.
  - destruct t as [k| | | | | | | | | | | |]; try discriminate. inversion M1; subst. split; [flat|]. match goal with X : made _ _ _ (TBits _) _ _ _ |- _ => inversion X; subst end. rewrite msb_length. destruct (Z.ltb_spec 0 k); [|discriminate]. assert (k = n) by congruence. lia.
Qed.
Lemma width_is_bits t n : width t = Some n -> is_bits t = true.
Proof. intros W. now apply width_bits in W as [? _]. Qed.

(** ** Sequences *)
Definition Xty t := gty env t = true -> forall loc en, exact SO (run_ty rt loc en t) (fun fs v l rest => made b fs en t v l rest).
Definition Xcs cs := gcases env cs = true -> forall loc en k' k, SV k' k -> exact SO (run_cases rt loc en k' cs) (fun fs v l rest => made_case b fs en k cs v l rest).
Definition Xq q := forall l l', gseq env q l = Some l' -> forall path i after o A F a fs, arrives l o -> 0 <= o <= fin -> R0 (A :: F) (a :: fs) ->
  (forall u f s, run_attrs rt path i after q (A :: F) (at_ b 0 o) = (Ok (u, f), s) ->
     exists new x rest, span b o fin = x ++ rest /\ made_seq b fs a q new x rest /\ R0 f ((a ++ new) :: fs) /\ s = at_ b 0 (o + Z.of_nat (List.length x)) /\ arrives l' (o + Z.of_nat (List.length x))) /\
  (forall new x rest, span b o fin = x ++ rest -> made_seq b fs a q new x rest ->
     (exists f, run_attrs rt path i after q (A :: F) (at_ b 0 o) = (Ok (tt, f), at_ b 0 (o + Z.of_nat (List.length x))) /\ R0 f ((a ++ new) :: fs)) /\ arrives l' (o + Z.of_nat (List.length x))).
Definition Xt t := gtyp env t = true -> forall o F fs, 0 <= o <= fin -> o mod 8 = 0 -> R0 F fs ->
  (forall v' f s, run_typ rt t F (at_ b 0 o) = (Ok (v', f), s) -> exists v l rest, span b o fin = l ++ rest /\ SV v' v /\ made_object b fs t v l rest /\ R0 f fs /\ s = at_ b 0 (o + Z.of_nat (List.length l))) /\
  (forall v l rest, span b o fin = l ++ rest -> made_object b fs t v l rest ->
     Z.of_nat (List.length l) mod 8 = 0 /\ exists v' f, run_typ rt t F (at_ b 0 o) = (Ok (v', f), at_ b 0 (o + Z.of_nat (List.length l))) /\ SV v' v /\ R0 f fs).

(** one attribute: condition, value, entry into the object *)
Definition one_attr path i x c r en t : K unit :=
  c <~ eval rt c VNone;; c <~ need_bool c;; if (c : bool) then v <~ run_rep rt (run_ty rt (attr_path path i) en t) r;; match v with Some v => put x v | None => kret tt end else kret tt.
Lemma attrs_unfold path i after x c r en t q fs s : (after && negb (is_bits t) = true -> align_to_byte s = (Ok tt, s)) ->
  run_attrs rt path i after (Attr x c r en t q) fs s = (_ <~ one_attr path i x c r en t;; run_attrs rt path (S i) (is_bits t) q) fs s.
Proof.
  intros H.
  change (run_attrs rt path i after (Attr x c r en t q) fs s) with ((_ <~ (if after && negb (is_bits t) then io align_to_byte else kret tt);; c <~ eval rt c VNone;; c <~ need_bool c;;
      _ <~ (if (c : bool) then v <~ run_rep rt (run_ty rt (attr_path path i) en t) r;; match v with Some v => put x v | None => kret tt end else kret tt);;
      run_attrs rt path (S i) (is_bits t) q) fs s).
  assert (E : (if after && negb (is_bits t) then io align_to_byte else kret tt) fs s = (Ok (tt, fs), s)). { destruct (after && negb (is_bits t)); [|reflexivity]. unfold io, bind. now rewrite H. }
  rewrite (kbind_ok _ _ _ _ _ _ _ E). unfold one_attr, kbind, bind. destruct (eval rt c VNone fs s) as [[[w g]|w] t0]; [|reflexivity]. cbn [fst snd]. destruct (need_bool w g t0) as [[[d g1]|d] t1]; reflexivity.
Qed.
(** what [one_attr] does, given what reading the value does *)
Lemma attr_exact path i x c r en t A F a fs o (P : option pyval -> Z -> Prop) : is_cache x = false -> sound env c = true -> o mod 8 = 0 \/ no_inst c = true -> 0 <= o <= fin -> R0 (A :: F) (a :: fs) ->
  (forall G v' f s, RR G (a :: fs) -> run_rep rt (run_ty rt (attr_path path i) en t) r G (at_ b 0 o) = (Ok (v', f), s) -> exists v n, P v n /\ SO v' v /\ RR f (a :: fs) /\ s = at_ b 0 (o + n)) ->
  (forall G v n, RR G (a :: fs) -> P v n -> exists v' f, run_rep rt (run_ty rt (attr_path path i) en t) r G (at_ b 0 o) = (Ok (v', f), at_ b 0 (o + n)) /\ SO v' v /\ RR f (a :: fs)) ->
  (forall u f s, one_attr path i x c r en t (A :: F) (at_ b 0 o) = (Ok (u, f), s) ->
    (value b (span b o fin) (a :: fs) VNone c = Some (VBool true) /\ exists v n, P v n /\ R0 f ((a ++ named x v) :: fs) /\ s = at_ b 0 (o + n)) \/
    (value b (span b o fin) (a :: fs) VNone c = Some (VBool false) /\ R0 f (a :: fs) /\ s = at_ b 0 o)) /\
  (value b (span b o fin) (a :: fs) VNone c = Some (VBool true) -> forall v n, P v n -> exists f, one_attr path i x c r en t (A :: F) (at_ b 0 o) = (Ok (tt, f), at_ b 0 (o + n)) /\ R0 f ((a ++ named x v) :: fs)) /\
  (value b (span b o fin) (a :: fs) VNone c = Some (VBool false) -> exists f, one_attr path i x c r en t (A :: F) (at_ b 0 o) = (Ok (tt, f), at_ b 0 o) /\ R0 f (a :: fs)).
Proof.
  intros Nx Sc Al Ho HF H1 H2. assert (HR : RR (A :: F) (a :: fs)) by (split; [exact HF|discriminate]).
  pose proof (proj1 evaluates c Sc VNone VNone (a :: fs) o ltac:(flat) Ho Al _ HR) as Y.
  assert (Put : forall G v' v, RR G (a :: fs) -> SO v' v -> forall s, exists f, match v' with Some v => put x v | None => kret tt end G s = (Ok (tt, f), s) /\ R0 f ((a ++ named x v) :: fs)).
  { intros G v' v HG Sv s. destruct (R_cons _ _ HG) as [A1 [F1 [a1 [fs1 [-> E]]]]]. injection E as <- <-. destruct HG as [HG _]. destruct v' as [v'|], v as [v|]; cbn [SO] in Sv; try contradiction; cbn [named].
    - exists ((A1 ++ [(x, v')]) :: F1). split; [reflexivity|]. now apply R_put.
    - exists (A1 :: F1). split; [reflexivity|]. now rewrite app_nil_r. }
  destruct (value b (span b o fin) (a :: fs) VNone c) as [w|].
  2: { destruct Y as [y [s E]]. split; [|split; discriminate]. intros u f t0 R. exfalso. unfold one_attr, kbind at 1, bind in R. rewrite E in R. discriminate. }
  destruct Y as [w' [G [E [Sw HG]]]]. pose proof (y_bool o _ _ _ Sw _ HG) as Y.
  assert (One : forall d G', need_bool w' G (at_ b 0 o) = (Ok (d, G'), at_ b 0 o) -> one_attr path i x c r en t (A :: F) (at_ b 0 o) =
    (if (d : bool) then v <~ run_rep rt (run_ty rt (attr_path path i) en t) r;; match v with Some v => put x v | None => kret tt end else kret tt) G' (at_ b 0 o)).
  { intros d G' E2. unfold one_attr. rewrite (kbind_ok _ _ _ _ _ _ _ E), (kbind_ok _ _ _ _ _ _ _ E2). reflexivity. }
  destruct (bool_of w) as [d|] eqn:Ed.
  2: { destruct Y as [y [s E2]]. split; [|split; intros Ew; injection Ew as ->; discriminate]. intros u f t0 R. exfalso. unfold one_attr in R. rewrite (kbind_ok _ _ _ _ _ _ _ E) in R. unfold kbind at 1, bind in R. rewrite E2 in R. discriminate. }
  apply bool_of_iff in Ed as ->. destruct Y as [d' [G' [E2 [-> HG']]]]. rewrite (One _ _ E2). clear One E E2. destruct d.
  - split; [|split; [|discriminate]].
    + intros u f s R. left. split; [reflexivity|]. apply kbind_inv in R as [v' [g [s1 [R1 R2]]]]. destruct (H1 _ _ _ _ HG' R1) as [v [n [HP [Sv [Hg ->]]]]]. destruct (Put g v' v Hg Sv (at_ b 0 (o + n))) as [f' [E Hf]]. rewrite E in R2. injection R2 as _ <- <-. exists v, n. auto.
    + intros _ v n HP. destruct (H2 _ _ _ HG' HP) as [v' [g [R1 [Sv Hg]]]]. destruct (Put g v' v Hg Sv (at_ b 0 (o + n))) as [f' [E Hf]]. exists f'. split; [|exact Hf]. rewrite (kbind_ok _ _ _ _ _ _ _ R1). exact E.
  - split; [|split; [discriminate|]].
    + intros u f s R. right. apply kret_inv in R as [_ [-> ->]]. split; [reflexivity|]. split; [apply HG'|reflexivity].
    + intros _. exists G'. split; [reflexivity|apply HG'].
Qed.

Lemma seq_exact x c r en t q : Xty t -> Xq q -> Xq (Attr x c r en t q).
Proof.
  intros IHt IHq l l' K path i after o A F a fs Hl Ho HF. cbn [gseq] in K.
  destruct (negb (is_cache x) && sound env c) eqn:Kc; [|discriminate]. apply andb_true_iff in Kc as [Nx Sc]. apply negb_true_iff in Nx.
  assert (Main : forall lm, gseq env q lm = Some l' -> o mod 8 = 0 \/ no_inst c = true -> (after && negb (is_bits t) = true -> o mod 8 = 0) ->
    (value b (span b o fin) (a :: fs) VNone c = Some (VBool false) -> arrives lm o) ->
    (forall G v' f s, RR G (a :: fs) -> run_rep rt (run_ty rt (attr_path path i) en t) r G (at_ b 0 o) = (Ok (v', f), s) ->
       exists v n, (exists y rest, span b o fin = y ++ rest /\ Z.of_nat (List.length y) = n /\ made_attr b (a :: fs) r en t v y rest) /\ SO v' v /\ RR f (a :: fs) /\ s = at_ b 0 (o + n)) ->
    (forall G v n, RR G (a :: fs) -> (exists y rest, span b o fin = y ++ rest /\ Z.of_nat (List.length y) = n /\ made_attr b (a :: fs) r en t v y rest) ->
       exists v' f, run_rep rt (run_ty rt (attr_path path i) en t) r G (at_ b 0 o) = (Ok (v', f), at_ b 0 (o + n)) /\ SO v' v /\ RR f (a :: fs)) ->
    (forall v y rest, span b o fin = y ++ rest -> made_attr b (a :: fs) r en t v y rest -> value b (span b o fin) (a :: fs) VNone c = Some (VBool true) -> arrives lm (o + Z.of_nat (List.length y))) ->
    (forall u f s, run_attrs rt path i after (Attr x c r en t q) (A :: F) (at_ b 0 o) = (Ok (u, f), s) ->
     exists new y rest, span b o fin = y ++ rest /\ made_seq b fs a (Attr x c r en t q) new y rest /\ R0 f ((a ++ new) :: fs) /\ s = at_ b 0 (o + Z.of_nat (List.length y)) /\ arrives l' (o + Z.of_nat (List.length y))) /\
    (forall new y rest, span b o fin = y ++ rest -> made_seq b fs a (Attr x c r en t q) new y rest ->
     (exists f, run_attrs rt path i after (Attr x c r en t q) (A :: F) (at_ b 0 o) = (Ok (tt, f), at_ b 0 (o + Z.of_nat (List.length y))) /\ R0 f ((a ++ new) :: fs)) /\ arrives l' (o + Z.of_nat (List.length y)))).
  { intros lm Kq Al Hal Hoff Hr1 Hr2 Hon. rewrite attrs_unfold.
    2: { intros E. pose proof (run_align b 0 o (Hal E)) as R. unfold runM in R. destruct (align_to_byte (at_ b 0 o)) as [[[]|] t0]; [|discriminate]. congruence. }
    destruct (attr_exact path i x c r en t A F a fs o _ Nx Sc Al Ho HF Hr1 Hr2) as [One1 [One2 One3]]. split.
    - intros u f s R. apply kbind_inv in R as [[] [f1 [s1 [R1 R2]]]]. apply One1 in R1 as [[Ev [v [n [[y [rest [S0 [<- M]]]] [Hf ->]]]]]|[Ev [Hf ->]]].
      + destruct (split_span _ _ _ Ho S0) as [Ho1 [_ E1]]. pose proof (Hon v y rest S0 M Ev) as Hm. destruct f1 as [|A1 F1]; [contradiction Hf|]. destruct (proj1 (IHq _ _ Kq path (Datatypes.S i) (is_bits t) _ _ _ _ fs Hm Ho1 Hf) _ _ _ R2) as [new [y2 [rest2 [S2 [M2 [Hf2 [-> A2]]]]]]].
        assert (Er : rest = y2 ++ rest2) by congruence. clear E1 S2. rewrite Er in *. clear Er. exists (named x v ++ new), (y ++ y2), rest2. rewrite <- app_assoc. split; [exact S0|]. split; [|rewrite app_length, Nat2Z.inj_add, Z.add_assoc, app_assoc; auto].
        constructor; [now rewrite <- S0|exact M|exact M2].
      + destruct f1 as [|A1 F1]; [contradiction Hf|]. destruct (proj1 (IHq _ _ Kq path (Datatypes.S i) (is_bits t) _ _ _ _ fs (Hoff Ev) Ho Hf) _ _ _ R2) as [new [y2 [rest2 [S2 [M2 [Hf2 [-> A2]]]]]]]. exists new, y2, rest2. split; [exact S2|]. split; [|auto]. apply G_absent; [now rewrite <- S2|exact M2].
    - intros new y rest S0 M. inversion M; subst.
      + rename l0 into y1, ls into y2. rewrite <- app_assoc in S0. match goal with X : value _ (y1 ++ y2 ++ rest) _ _ _ = _, Y : made_attr _ _ _ _ _ _ _ _, Z : made_seq _ _ _ _ _ _ _ |- _ => rename X into Ev, Y into M1, Z into M2 end. rewrite <- S0 in Ev.
        destruct (split_span _ _ _ Ho S0) as [Ho1 [_ E1]]. pose proof (Hon v y1 _ S0 M1 Ev) as Hm. destruct (One2 Ev v (Z.of_nat (List.length y1))) as [f1 [R1 Hf]]; [exists y1, (y2 ++ rest); auto|]. destruct f1 as [|A1 F1]; [contradiction Hf|].
        destruct (proj2 (IHq _ _ Kq path (Datatypes.S i) (is_bits t) _ _ _ _ fs Hm Ho1 Hf) _ _ _ (eq_sym E1) M2) as [[f [R2 Hf2]] A2].
        rewrite app_length, Nat2Z.inj_add, Z.add_assoc, app_assoc. split; [|exact A2]. exists f. split; [|exact Hf2]. rewrite (kbind_ok _ _ _ _ _ _ _ R1). exact R2.
      + match goal with X : value _ _ _ _ _ = _, Z : made_seq _ _ _ _ _ _ _ |- _ => rename X into Ev, Z into M2 end. rewrite <- S0 in Ev. destruct (One3 Ev) as [f1 [R1 Hf]]. destruct f1 as [|A1 F1]; [contradiction Hf|]. destruct (proj2 (IHq _ _ Kq path (Datatypes.S i) (is_bits t) _ _ _ _ fs (Hoff Ev) Ho Hf) _ _ _ S0 M2) as [[f [R2 Hf2]] A2].
        split; [|exact A2]. exists f. split; [|exact Hf2]. rewrite (kbind_ok _ _ _ _ _ _ _ R1). exact R2. }
  destruct (width t) as [n|] eqn:W.
  - destruct r; try discriminate. destruct (no_inst c) eqn:Nc; [|discriminate]. pose proof (width_is_bits _ _ W) as Hb. apply (Main _ K (or_intror eq_refl)).
    + rewrite Hb. cbn [negb]. rewrite andb_false_r. discriminate.
    + intros Ev. destruct l as [k|]; [|exact I]. cbn [arrives] in Hl. unfold step. destruct c; try (destruct (Z.eqb_spec (n mod 8) 0); [exact Hl|exact I]). discriminate.
    + intros G v f s HG R. cbn [run_rep] in R. apply (bit_exact t n _ en o G (a :: fs) v f s W Ho) in R as [[y [rest [S0 [L M]]]] [-> ->]]. exists v, n. split; [|split; [exact (proj1 (bits_same _ _ _ _ _ _ _ W M))|now split]]. exists y, rest. split; [exact S0|]. split; [exact L|]. now constructor.
    + intros G v m HG [y [rest [S0 [L M]]]]. inversion M; subst. match goal with X : made _ _ _ _ _ _ _ |- _ => rename X into M1 end. destruct (bits_same _ _ _ _ _ _ _ W M1) as [Sv Ln]. exists v, G. split; [|now split]. cbn [run_rep]. apply (bit_exact t n _ en o G (a :: fs) v G _ W Ho). rewrite Ln. split; [|now split]. exists y, rest. auto.
    + intros v y rest S0 M Ev. inversion M; subst. match goal with X : made _ _ _ _ _ _ _ |- _ => rename X into M1 end. destruct (bits_same _ _ _ _ _ _ _ W M1) as [_ Ln].
      rewrite Ln. destruct l as [k|]; [|exact I]. cbn [arrives] in Hl. unfold step. assert (Z1 : (o + n) mod 8 = (k + n) mod 8) by (subst k; rewrite Zplus_mod_idemp_l; reflexivity).
      destruct c; try (destruct (Z.eqb_spec (n mod 8) 0) as [Z2|]; [|exact I]; cbn [arrives]; subst k; lia). exact Z1.
  - match type of K with (if ?c then _ else _) = _ => destruct c eqn:E; [|discriminate] end. repeat match goal with H : _ && _ = true |- _ => apply andb_true_iff in H as [? ?] end.
    assert (Ha : o mod 8 = 0) by (destruct l as [[]|]; try discriminate; assumption).
    assert (Hr : exact SO (run_rep rt (run_ty rt (attr_path path i) en t) r) (fun fs v l rest => made_attr b fs r en t v l rest)) by (apply l_rep; [destruct r; auto|now apply IHt]).
    apply (Main _ K); [now left|auto|intros _; exact Ha| | |].
    + intros G v' f s HG R. destruct (proj1 Hr _ _ _ _ _ _ Ho Ha HG R) as [v [y [rest [S0 [Sv [M [Hf ->]]]]]]]. exists v, (Z.of_nat (List.length y)). split; [|now split]. exists y, rest. auto.
    + intros G v m HG [y [rest [S0 [<- M]]]]. exact (proj2 (proj2 Hr o G (a :: fs) v y rest Ho Ha HG S0 M)).
    + intros v y rest S0 M _. assert (HR : RR (A :: F) (a :: fs)) by (split; [exact HF|discriminate]). destruct (proj2 Hr o _ (a :: fs) v y rest Ho Ha HR S0 M) as [M8 _]. cbn [arrives]. lia.
Qed.

(** ** Types, cases, attributes and objects, by induction on definitions *)
Lemma em_strfull c : exactM (vstr_full rt c) (fun v l rest => exists s x, v = VStr s /\ encode_text c s = Some x /\ l = bytes_bits x /\ rest = []).
Proof.
  eapply em_iff; [|apply (em_ext (s <- (x <- read_bytes_full rt;; lift (py_decode c x));; ret (VStr s))); [|apply em_map, em_decode, em_full]].
  - intros v l rest. split.
    + intros [s [-> [x [E [-> ->]]]]]. exists s, x. auto.
    + intros [s [x [-> [E [-> ->]]]]]. exists s. split; [reflexivity|]. exists x. auto.
  - intros s. unfold vstr_full, bind. destruct (read_bytes_full rt s) as [[x|x] t]; reflexivity.
Qed.
Lemma SV_key k v' v : SV v' v -> is_key k v' = is_key k v.
Proof. intros H. destruct k; cbn [is_key]; [| |now apply SV_scalar]; destruct H as [<- _]; destruct v'; reflexivity. Qed.
Lemma bind_ok {A B} (m : M A) (k : A -> M B) s a s1 : m s = (Ok a, s1) -> bind m k s = k a s1.
Proof. intros E. unfold bind. now rewrite E. Qed.
Lemma run_typ_ok path q F s : run_typ rt (Typ path q) F s = (r <- run_attrs rt path 0 false q ([] :: F);; ret (VObj (class_name path) (hd [] (snd r)), tl (snd r))) s.
Proof. reflexivity. Qed.
Lemma all_exact : (forall e : expr, True) /\ (forall i : inst, True) /\ (forall t, Xty t) /\ (forall cs, Xcs cs) /\ (forall k : key, True) /\ (forall r : rep, True) /\ (forall q, Xq q) /\ (forall t, Xt t).
Proof.
  apply (ksy_mind (fun _ => True) (fun _ => True) Xty Xcs (fun _ => True) (fun _ => True) Xq Xt); try (intros; exact I).
  - intros n K. discriminate.
  - intros K. discriminate.
  - intros f K loc en. cbn [run_ty]. eapply e_iff; [|apply e_some; [apply em_enum, em_number|]].
    2: { cbv beta. intros v l rest [z [-> _]]. apply numeral_SV. }
    intros fs v l rest. split.
    + intros [w [-> [z [-> [-> Hz]]]]]. now constructor.
    + intros M. inversion M; subst. eexists. split; [reflexivity|]. exists z. auto.
  - intros e _ K loc en. eapply e_iff; [|apply (e_sized e (vbytes rt)); [exact K|intros n; unfold vbytes; apply em_map, em_bytes|]].
    2: { cbv beta. intros n v l rest [z [-> _]]. flat. }
    intros fs v l rest. split.
    + intros [n [w [E [-> [x [-> [-> <-]]]]]]]. now constructor.
    + intros M. inversion M; subst. exists (blen x). eexists. split; [eassumption|]. split; [reflexivity|]. exists x. auto.
  - intros K loc en. cbn [run_ty]. eapply e_iff; [|apply e_some; [unfold vfull; apply em_map, em_full|]].
    2: { cbv beta. intros v l rest [z [-> _]]. flat. }
    intros fs v l rest. split.
    + intros [w [-> [x [-> [-> ->]]]]]. constructor.
    + intros M. inversion M; subst. eexists. split; [reflexivity|]. exists x. auto.
  - intros c e _ K loc en. eapply e_iff; [|apply (e_sized e (vstr rt c)); [exact K|intros n; unfold vstr, read_str; apply em_map, em_decode, em_bytes|]].
    2: { cbv beta. intros n v l rest [z [-> _]]. flat. }
    intros fs v l rest. split.
    + intros [n [w [E [-> [s [-> [x [Hs [-> <-]]]]]]]]]. now constructor.
    + intros M. inversion M; subst. exists (blen x). eexists. split; [eassumption|]. split; [reflexivity|]. exists s. split; [reflexivity|]. exists x. auto.
  - intros c K loc en. cbn [run_ty]. eapply e_iff; [|apply e_some; [apply em_strfull|]].
    2: { cbv beta. intros v l rest [z [x [-> _]]]. flat. }
    intros fs v l rest. split.
    + intros [w [-> [s [x [-> [E [-> ->]]]]]]]. now constructor.
    + intros M. inversion M; subst. eexists. split; [reflexivity|]. exists s, x. auto.
  - intros x K loc en. cbn [run_ty]. eapply e_iff; [|apply e_some; [apply em_expect|]].
    2: { cbv beta. intros v l rest [-> _]. flat. }
    intros fs v l rest. split.
    + intros [w [-> [-> ->]]]. constructor.
    + intros M. inversion M; subst. eexists. split; [reflexivity|]. auto.
  - intros t IH z K loc en.
    change (exact SO (v <~ run_ty rt loc en t;; (fun v => v <~ present v;; n <~ need_int v;; if n =? z then kret (Some v) else fun _ => fail (ValidationNotEqualError (VInt z) v loc)) v) (fun fs v l rest => made b fs en (TValid t z) v l rest)).
    assert (X : forall w' w, SO w' w -> exact SO (v <~ present w';; n <~ need_int v;; if n =? z then kret (Some v) else fun _ => fail (ValidationNotEqualError (VInt z) v loc))
      (still (fun _ _ => match w with Some (VInt y) => if y =? z then Some (Some (VInt y)) else None | _ => None end))).
    { intros w' w Sw. apply e_still. intros o fs Ho Ha F HF. destruct w' as [w'|], w as [w|]; cbn [SO] in Sw; try contradiction; [|do 2 eexists; reflexivity]. destruct Sw as [<- Tw].
      destruct w'; try (do 2 eexists; reflexivity). cbn [without_caches]. unfold kbind, bind, present, need_int, kret, ret. cbn [fst snd].
      destruct (Z.eqb_spec z0 z) as [Ez|Ez]; [|do 2 eexists; reflexivity]. do 2 eexists. split; [reflexivity|]. split; [cbn [SO]; flat|exact HF]. }
    eapply e_iff; [|eapply (e_bind SO SO); [apply IH; exact K|exact X]]. intros fs v l rest. unfold seq_pred, still. split.
    + intros [w [l1 [l2 [-> [M [-> E]]]]]]. rewrite app_nil_r. destruct w as [[| y | | | | | |]|]; try discriminate. destruct (Z.eqb_spec y z) as [Ez|]; [subst y|discriminate]. injection E as <-. now constructor.
    + intros M. inversion M; subst. exists (Some (VInt z)), l, []. rewrite app_nil_r, Z.eqb_refl. auto.
  - intros t IH K loc en. split.
    + intros o F fs v' f s Ho Ha HF R. apply imported_inv in R as [-> [w [g [-> R]]]]. destruct (IH K o [] [] Ho Ha I) as [Fw _]. destruct (Fw _ _ _ R) as [v [l [rest [S0 [Sv [M [_ ->]]]]]]]. exists (Some v), l, rest. split; [exact S0|]. split; [exact Sv|]. split; [now constructor|auto].
    + intros o F fs v l rest Ho Ha HF S0 M. inversion M; subst. match goal with H : made_object _ _ _ _ _ _ |- _ => rename H into M1 end. destruct (proj2 (IH K o [] [] Ho Ha I) _ l rest S0 M1) as [M8 [v' [f [R [Sv _]]]]]. split; [exact M8|].
      exists (Some v'), F. split; [|split; [exact Sv|exact HF]]. change (run_ty rt loc en (TImported t)) with (fun fs : frames => r <- run_typ rt t [];; ret (Some (fst r), fs)). cbv beta. unfold bind. rewrite R. reflexivity.
  - intros t IH K loc en. change (exact SO (v <~ run_typ rt t;; kret (Some v)) (fun fs v l rest => made b fs en (TLocal t) v l rest)).
    eapply e_iff; [|eapply (e_map SV SO _ Some); [intros a' a Ha; exact Ha|split]].
    + intros fs v l rest. split.
      * intros [w [-> M]]. constructor. exact M.
      * intros M. inversion M; subst. eexists. split; [reflexivity|]. eassumption.
    + intros o F fs v' f s Ho Ha [HF HN] R. destruct (proj1 (IH K o F fs Ho Ha HF) _ _ _ R) as [v [l [rest [S0 [Sv [M [Hf ->]]]]]]]. exists v, l, rest. split; [exact S0|]. split; [exact Sv|]. split; [exact M|]. split; [now split|reflexivity].
    + intros o F fs v l rest Ho Ha [HF HN] S0 M. destruct (proj2 (IH K o F fs Ho Ha HF) _ _ _ S0 M) as [M8 [v' [f [R [Sv Hf]]]]]. split; [exact M8|]. exists v', f. split; [exact R|]. split; [exact Sv|]. now split.
  - intros e _ t _ K. discriminate.
  - intros e _ cs IH K loc en. cbn [gty] in K. apply andb_true_iff in K as [K1 K2]. change (exact SO (v <~ eval rt e VNone;; run_cases rt loc en v cs) (fun fs v l rest => made b fs en (TSwitch e cs) v l rest)).
    eapply e_iff; [|eapply (e_then SV SO); [apply (e_eval e VNone VNone); [flat|exact K1]|intros k' k Sk; exact (IH K2 loc en k' k Sk)]]. cbv beta. intros fs v l rest. split.
    + intros [k [E M]]. econstructor; eassumption.
    + intros M. inversion M; subst. eauto.
  - intros K loc en k' k Sk. cbn [run_cases]. eapply e_iff; [|apply (e_ret SO None None); exact I]. intros fs v l rest. unfold still. split; [intros [-> E]; assert (v = None) as -> by congruence; constructor|]. intros M. inversion M; auto.
  - intros t IH K loc en k' k Sk. change (exact SO (run_ty rt loc en t) (fun fs v l rest => made_case b fs en k (CDefault t) v l rest)). eapply e_iff; [|apply IH; exact K]. intros fs v l rest. split; [now constructor|]. intros M. now inversion M.
  - intros k _ t IHt cs IHc K loc en y' y Sy. cbn [gcases] in K. apply andb_true_iff in K as [K1 K2]. change (exact SO (if is_key k y' then run_ty rt loc en t else run_cases rt loc en y' cs) (fun fs v l rest => made_case b fs en y (CCons k t cs) v l rest)).
    rewrite (SV_key k _ _ Sy). destruct (is_key k y) eqn:E.
    + eapply e_iff; [|apply IHt; exact K1]. intros fs v l rest. split; [now constructor|]. intros M. inversion M; subst; [assumption|congruence].
    + eapply e_iff; [|apply (IHc K2 loc en y' y Sy)]. intros fs v l rest. split; [now apply G_later|]. intros M. inversion M; subst; [congruence|assumption].
  - intros l l' K path i after o A F a fs Hl Ho HF. cbn [gseq] in K. assert (l = l') as <- by congruence. change (run_attrs rt path i after Nil) with (kret tt). split.
    + intros u f s R. apply kret_inv in R as [_ [-> ->]]. exists [], [], (span b o (8 * blen b)). split; [reflexivity|]. split; [constructor|]. rewrite nil_stay, app_nil_r. auto.
    + intros new x rest S0 M. inversion M; subst. rewrite nil_stay, app_nil_r. split; [|exact Hl]. exists (A :: F). split; [reflexivity|exact HF].
  - intros x c _ r _ en t IHt q IHq. now apply seq_exact.
  - intros path q IH K o F fs Ho Ha HF. change (match gseq env q (Some 0) with Some l => at_byte l | None => false end = true) in K. destruct (gseq env q (Some 0)) as [l'|] eqn:Q; [|discriminate]. destruct (IH _ _ Q path 0%nat false o [] F [] fs Ha Ho (R_push _ _ HF)) as [Fw Bw]. split.
    + intros v' f s R. rewrite run_typ_ok in R.
      apply bind_inv in R as [[u g] [s1 [R E]]]. destruct (Fw _ _ _ R) as [new [l [rest [S0 [M [Hg [-> A1]]]]]]]. unfold ret in E. cbn [snd app] in *.
      injection E as <- <- <-. exists (VObj (class_name path) new), l, rest. split; [exact S0|]. split; [apply obj_SV; exact (R_hd _ _ Hg)|]. split; [now constructor|]. split; [exact (R_tl _ _ Hg)|reflexivity].
    + intros v l rest S0 M. inversion M; subst. match goal with H : made_seq _ _ _ _ _ _ _ |- _ => destruct (Bw _ _ _ S0 H) as [[g [R Hg]] A1] end.
      split; [destruct l' as [[]|]; try discriminate; cbn [arrives] in A1; lia|]. cbn [app] in Hg.
      exists (VObj (class_name path) (hd [] g)), (tl g). split; [rewrite run_typ_ok; etransitivity; [exact (bind_ok _ _ _ _ _ R)|reflexivity]|]. split; [apply obj_SV; exact (R_hd _ _ Hg)|exact (R_tl _ _ Hg)].
Qed.

Lemma grammar_fwd T : grammatical env T = true -> forall v' s, ksy_read rt T (stream_of b) = (Ok v', s) ->
  exists l rest, span b 0 fin = l ++ rest /\ made_object b [] T (without_caches v') l rest /\ tidy ns v' = true /\ s = at_ b 0 (Z.of_nat (List.length l)).
Proof.
  intros K v s. rewrite at_init. destruct T as [path q]. cbn [grammatical] in K. destruct (gseq env q (Some 0)) as [l'|] eqn:Q; [|discriminate].
  destruct all_exact as [_ [_ [_ [_ [_ [_ [Hq _]]]]]]]. destruct (Hq q _ _ Q path 0%nat false 0 [] [] [] [] eq_refl ltac:(unfold blen; lia) (R_push [] [] I)) as [Fw _]. unfold ksy_read.
  intros R. apply bind_inv in R as [[w g] [t1 [R E]]]. rewrite run_typ_ok in R. apply bind_inv in R as [[u g1] [t2 [R E2]]]. destruct (Fw _ _ _ R) as [new [l [rest [S0 [M [Hg [-> _]]]]]]]. unfold ret in E, E2. cbn [fst snd app] in *.
  injection E as <- <-. injection E2 as <- _ <-. destruct (obj_SV (class_name path) _ _ (R_hd _ _ Hg)) as [E1 T1]. exists l, rest. split; [exact S0|]. split; [cbn [hd] in E1; rewrite E1; now constructor|]. now split.
Qed.
Lemma grammar_bwd T : grammatical env T = true -> forall v l rest, span b 0 fin = l ++ rest -> made_object b [] T v l rest ->
  exists v', ksy_read rt T (stream_of b) = (Ok v', at_ b 0 (Z.of_nat (List.length l))) /\ without_caches v' = v /\ tidy ns v' = true.
Proof.
  intros K v l rest S0 M. rewrite at_init. destruct T as [path q]. cbn [grammatical] in K. destruct (gseq env q (Some 0)) as [l'|] eqn:Q; [|discriminate].
  destruct all_exact as [_ [_ [_ [_ [_ [_ [Hq _]]]]]]]. destruct (Hq q _ _ Q path 0%nat false 0 [] [] [] [] eq_refl ltac:(unfold blen; lia) (R_push [] [] I)) as [_ Bw].
  inversion M; subst. match goal with H : made_seq _ _ _ _ _ _ _ |- _ => destruct (Bw _ _ _ S0 H) as [[g [R Hg]] _] end. cbn [app] in Hg.
  exists (VObj (class_name path) (hd [] g)). split; [|exact (obj_SV (class_name path) _ _ (R_hd _ _ Hg))]. unfold ksy_read. etransitivity; [apply bind_ok; rewrite run_typ_ok; etransitivity; [exact (bind_ok _ _ _ _ _ R)|reflexivity]|reflexivity].
Qed.
End One.
