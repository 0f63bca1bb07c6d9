(** Each field of a table depends on its own bits only.  (Support for C52 and C53.) *)
From Verif Require Import PyBase Runtime Codec CodecSpec Spec BitSpec RuntimeProofs TilesProofs DecAlgebra Layouts.
From Coq Require Import ZifyBool.
Ltac Zify.zify_post_hook ::= Z.div_mod_to_equations.
Open Scope string_scope.
Open Scope list_scope.
Open Scope Z_scope.

Definition bits_same (b b' : bytes) (o w : Z) : Prop := forall i, o <= i < o + w -> bit b i = bit b' i.

Lemma same_ubits b b' o w : 0 <= w -> bits_same b b' o w -> ubits b o w = ubits b' o w.
Proof.
  intros Hw H. Transparent ubits. unfold ubits. Opaque ubits. assert (Hn : Z.of_nat (Z.to_nat w) <= w) by lia. revert Hn. induction (Z.to_nat w) as [|n IH]; intros Hn; [reflexivity|].
  cbn [ubits_n]. rewrite IH by lia. rewrite H by lia. reflexivity.
Qed.
Lemma same_slice b b' p n : 0 <= p -> 0 <= n -> blen b = blen b' -> bits_same b b' (8 * p) (8 * n) -> slice b p n = slice b' p n.
Proof.
  intros Hp Hn Hl H. Transparent slice. unfold slice. Opaque slice. apply (nth_ext _ _ Byte.x00 Byte.x00).
  - rewrite !firstn_length, !skipn_length. unfold blen in Hl. lia.
  - intros i Hi. rewrite firstn_length in Hi.
    assert (Hi' : (i < Z.to_nat n)%nat) by lia.
    assert (N : forall l : bytes, nth i (firstn (Z.to_nat n) l) Byte.x00 = nth i l Byte.x00).
    { intros l. clear -Hi'. revert l Hi'. generalize (Z.to_nat n) as m. intros m. revert i. induction m as [|m IH]; intros i [|x l] Hi; try lia; [destruct i; reflexivity|].
      destruct i as [|i]; [reflexivity|]. cbn [firstn nth]. apply IH. lia. }
    assert (K : forall (l : bytes) q, nth i (skipn q l) Byte.x00 = nth (q + i) l Byte.x00).
    { clear. intros l q. revert l. induction q as [|q IH]; intros [|x l]; cbn [skipn Nat.add nth]; try reflexivity; [destruct i; reflexivity|apply IH]. }
    rewrite !N, !K.
    assert (U : ubits b (8 * (p + Z.of_nat i)) 8 = ubits b' (8 * (p + Z.of_nat i)) 8).
    { apply same_ubits; [lia|]. intros j Hj. apply H. lia. }
    rewrite !ubits_byte in U by lia. replace (Z.to_nat (p + Z.of_nat i)) with (Z.to_nat p + i)%nat in U by lia.
    apply (f_equal zb) in U. rewrite !zb_bz in U. exact U.
Qed.
Lemma same_fits b b' k c : blen b = blen b' -> fits b k c = fits b' k c.
Proof. intros H. Transparent fits. unfold fits. Opaque fits. rewrite H. reflexivity. Qed.

(** A kind looks only at its own bits (and at the length of the packet). *)
Definition bitwise (K : kind) : Prop := forall b b' k c, 0 <= k -> kind_ok c K = true -> blen b = blen b' ->
  bits_same b b' (8 * k + c) (kwidth K) -> decode b k c K = decode b' k c K.
Lemma bitwise_flat K : (match K with KSub _ _ => False | _ => True end) -> bitwise K.
Proof.
  intros HK b b' k c Hk Ho Hl H. unfold kind_ok in Ho. apply andb_true_iff in Ho as [Ho Hal]. apply andb_true_iff in Ho as [Hc Hw]. apply Z.leb_le in Hc, Hw.
  assert (N : forall f, kwidth K = nwidth f -> (match f with NLe _ => c mod 8 = 0 | _ => True end) -> num b k c f = num b' k c f).
  { intros f E A. rewrite E in *. destruct f as [w|n|]; cbn [num nwidth] in *.
    - apply same_ubits; assumption.
    - rewrite (same_slice b b'); [reflexivity|lia|lia|assumption|]. intros i Hi. apply H. lia.
    - rewrite (same_ubits b b'); [reflexivity|lia|assumption]. }
  assert (S : forall n, kwidth K = 8 * n -> c mod 8 = 0 -> slice b (k + c / 8) n = slice b' (k + c / 8) n).
  { intros n E A. rewrite E in *. apply same_slice; [lia|lia|assumption|]. intros i Hi. apply H. lia. }
  unfold decode. destruct K as [f| |E f|n|en n|l path|w g]; [..|destruct HK]; rewrite (same_fits b b') by assumption; destruct (fits b' k _); try reflexivity.
  - rewrite (N f); [reflexivity|reflexivity|destruct f; (exact I || lia)].
  - rewrite (H (8 * k + c)); [reflexivity|cbn [kwidth]; lia].
  - rewrite (N f); [reflexivity|reflexivity|destruct f; (exact I || lia)].
  - rewrite (S n); [reflexivity|reflexivity|lia].
  - rewrite (S n); [reflexivity|reflexivity|lia].
  - rewrite (S (blen l)); [reflexivity|reflexivity|lia].
Qed.
Lemma fields_bitwise fs : Forall (fun f => bitwise (f_kind f)) fs -> forall b b' k, kinds_ok fs = true -> 0 <= k -> blen b = blen b' ->
  (forall f, In f fs -> bits_same b b' (8 * k + f_off f) (kwidth (f_kind f))) -> fields b k fs = fields b' k fs.
Proof.
  induction 1 as [|f fs Hf Hfs IH]; intros b b' k Ho Hk Hl H; [reflexivity|]. cbn [fields kinds_ok] in *. apply andb_true_iff in Ho as [O1 O2].
  rewrite (Hf b b' k (f_off f)); [|assumption|assumption|assumption|apply H; left; reflexivity]. rewrite (IH b b'); [reflexivity|assumption..|]. intros g Hg. apply H. right. exact Hg.
Qed.
Lemma tiles_inside fs : forall c f, tiles fs c = true -> kinds_ok fs = true -> In f fs -> c <= f_off f /\ f_off f + kwidth (f_kind f) <= fs_end fs c.
Proof.
  induction fs as [|g fs IH]; intros c f Ht Ho Hin; [destruct Hin|]. cbn [tiles kinds_ok fs_end] in *. apply andb_true_iff in Ht as [H1 H2]. apply andb_true_iff in Ho as [O1 O2].
  apply Z.eqb_eq in H1. pose proof (fs_end_tiles fs _ H2 O2). unfold kind_ok in O1. apply andb_true_iff in O1 as [O1 _]. apply andb_true_iff in O1 as [_ O1].
  destruct Hin as [<-|Hin]; [rewrite H1; lia|]. destruct (IH _ f H2 O2 Hin). rewrite H1. lia.
Qed.
Lemma bitwise_sub w cls fs : Forall (fun f => bitwise (f_kind f)) fs -> tiles fs 0 = true -> kinds_ok fs = true -> fs_end fs 0 = w -> bitwise (KSub w (object cls fs)).
Proof.
  intros Hb Ht Ho Hw b b' k c Hk Hc Hl H. unfold kind_ok in Hc. apply andb_true_iff in Hc as [Hc Hal]. apply andb_true_iff in Hc as [Hc _]. cbn [decode kwidth] in *.
  unfold object. f_equal. apply (fields_bitwise fs Hb); [assumption|lia|assumption|]. intros f Hin i Hi. apply H.
  destruct (tiles_inside fs 0 f Ht Ho Hin). lia.
Qed.
Ltac bitwise := repeat match goal with
  | |- Forall _ [] => apply Forall_nil
  | |- Forall _ (_ :: _) => apply Forall_cons
  | |- bitwise (f_kind (F _ _ ?K)) => change (bitwise K)
  | |- bitwise (KSub _ (object _ ?fs)) => apply bitwise_sub; [unfold fs|reflexivity|reflexivity|reflexivity]
  | |- bitwise _ => apply bitwise_flat; exact I
  end.
Lemma layouts_bitwise rt : Forall (fun l => Forall (fun f => bitwise (f_kind f)) (ly_table l)) (fixed_layouts rt).
Proof. unfold fixed_layouts. repeat (apply Forall_cons; [cbn [ly_table]; match goal with |- Forall _ ?fs => unfold fs end; bitwise|]). apply Forall_nil. Qed.

Lemma tiles_app fs gs : forall c, tiles (fs ++ gs) c = tiles fs c && tiles gs (fs_end fs c).
Proof.
  induction fs as [|f fs IH]; intros c; cbn [app tiles fs_end]; [reflexivity|]. rewrite <- andb_assoc.
  destruct (Z.eqb_spec (f_off f) c) as [->|]; [|reflexivity]. rewrite IH. reflexivity.
Qed.
Lemma kinds_ok_app fs gs : kinds_ok (fs ++ gs) = kinds_ok fs && kinds_ok gs.
Proof. induction fs as [|f fs IH]; cbn [app kinds_ok]; [reflexivity|]. rewrite IH, andb_assoc. reflexivity. Qed.
Lemma fields_app b k fs gs : fields b k (fs ++ gs) = match fields b k fs with Err e => Err e | Ok a => match fields b k gs with Err e => Err e | Ok a' => Ok (a ++ a') end end.
Proof.
  induction fs as [|f fs IH]; cbn [app fields]; [destruct (fields b k gs); reflexivity|]. destruct (decode b k (f_off f) (f_kind f)); [|reflexivity].
  rewrite IH. destruct (fields b k fs); [|reflexivity]. destruct (fields b k gs); reflexivity.
Qed.

(** Outside one field: the two packets have the same length and the same bits. *)
Definition differ_only_in (o w : Z) (b b' : bytes) : Prop :=
  blen b = blen b' /\ forall i, 0 <= i -> ~ (o <= i < o + w) -> bit b i = bit b' i.
(** the parts of a table before and after a field are decoded alike *)
Lemma fields_around fs f gs b b' k : Forall (fun f => bitwise (f_kind f)) (fs ++ f :: gs) -> tiles (fs ++ f :: gs) 0 = true -> kinds_ok (fs ++ f :: gs) = true ->
  0 <= k -> differ_only_in (8 * k + f_off f) (kwidth (f_kind f)) b b' -> fields b k fs = fields b' k fs /\ fields b k gs = fields b' k gs.
Proof.
  intros Hb Ht Ho Hk [Hl Hd]. apply Forall_app in Hb as [Hb1 Hb2]. inversion Hb2 as [|? ? Hb0 Hb3]; subst.
  rewrite tiles_app in Ht. apply andb_true_iff in Ht as [T1 T2]. cbn [tiles] in T2. apply andb_true_iff in T2 as [T0 T2]. apply Z.eqb_eq in T0.
  rewrite kinds_ok_app in Ho. apply andb_true_iff in Ho as [O1 O2]. cbn [kinds_ok] in O2. apply andb_true_iff in O2 as [O0 O2].
  pose proof (fs_end_tiles fs 0 T1 O1). unfold kind_ok in O0. apply andb_true_iff in O0 as [O0 _]. apply andb_true_iff in O0 as [_ O0].
  split; apply fields_bitwise; try assumption; intros g Hg i Hi; apply Hd.
  - pose proof (tiles_inside fs 0 g T1 O1 Hg). lia.
  - pose proof (tiles_inside fs 0 g T1 O1 Hg). rewrite T0. lia.
  - pose proof (tiles_inside gs _ g T2 O2 Hg). lia.
  - pose proof (tiles_inside gs _ g T2 O2 Hg). rewrite T0. lia.
Qed.
