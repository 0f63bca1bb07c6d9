(** Memoised properties: what any history of accesses shows. *)
From Verif Require Import PyBase Runtime Codec Spec RuntimeProofs Getters.
Open Scope string_scope.
Open Scope list_scope.
Open Scope Z_scope.

(** ** Actions never change the underlying buffer *)
Definition keeps {A} (m : M A) : Prop := forall s, s_buf (snd (m s)) = s_buf s.

Lemma keeps_ret {A} (a : A) : keeps (ret a). Proof. intros s. reflexivity. Qed.
Lemma keeps_fail {A} e : keeps (@fail A e). Proof. intros s. reflexivity. Qed.
Lemma keeps_lift {A} (r : res A) : keeps (lift r). Proof. intros s. reflexivity. Qed.
Lemma keeps_bind {A B} (m : M A) (k : A -> M B) : keeps m -> (forall a, keeps (k a)) -> keeps (bind m k).
Proof. intros Hm Hk s. unfold bind. specialize (Hm s). destruct (m s) as [[a|e] s']; cbn [snd] in *; [rewrite Hk|]; exact Hm. Qed.
Lemma keeps_align : keeps align_to_byte. Proof. intros s. reflexivity. Qed.
Lemma auto_align_buf rt s : s_buf (auto_align rt s) = s_buf s. Proof. destruct rt; reflexivity. Qed.
Lemma keeps_raw n : keeps (raw_read_bytes n).
Proof. intros s. unfold raw_read_bytes, io_read. destruct (n <? 0); [reflexivity|]. cbv zeta iota beta. destruct (_ <? n); reflexivity. Qed.
Lemma keeps_read_bytes rt n : keeps (read_bytes rt n).
Proof. intros s. unfold read_bytes. rewrite keeps_raw. apply auto_align_buf. Qed.
Lemma keeps_full rt : keeps (read_bytes_full rt).
Proof. intros s. unfold read_bytes_full. cbn. apply auto_align_buf. Qed.
Lemma keeps_bits n : keeps (read_bits n).
Proof.
  intros s. unfold read_bits. cbv zeta. destruct (0 <? _); [|reflexivity].
  match goal with |- context [raw_read_bytes ?n ?s0] => pose proof (keeps_raw n s0) as H; destruct (raw_read_bytes n s0) as [[r|e] s2] end; exact H.
Qed.
Lemma keeps_eof rt : keeps (is_eof rt).
Proof. intros s. unfold is_eof. destruct (0 <? _); [reflexivity|]. destruct rt; [|reflexivity]. unfold io_read. cbv zeta iota beta. destruct (if _ <=? 1 then _ else _); reflexivity. Qed.
Lemma keeps_pos : keeps io_pos. Proof. intros s. reflexivity. Qed.
Lemma keeps_size : keeps io_size. Proof. intros s. reflexivity. Qed.
Lemma keeps_seek rt n : keeps (io_seek rt n). Proof. intros s. unfold io_seek. cbn. apply auto_align_buf. Qed.

(** ** Objects opened stand-alone *)
Lemma open_from p b o : open_object p b = Ok o -> exists cls, from_bytes p b = Ok (VObj cls (l_attrs o)).
Proof.
  unfold open_object, from_bytes. destruct (p (stream_of b)) as [[v|e] s]; [|discriminate]. destruct v; try discriminate.
  intros [= <-]. eexists. reflexivity.
Qed.
Lemma open_buf p b o : keeps p -> open_object p b = Ok o -> s_buf (l_io o) = b.
Proof.
  intros Hk. unfold open_object. pose proof (Hk (stream_of b)) as H. destruct (p (stream_of b)) as [[v|e] s]; [|discriminate]. destruct v; try discriminate.
  intros [= <-]. exact H.
Qed.
Lemma from_open p b cls a : from_bytes p b = Ok (VObj cls a) -> exists o, open_object p b = Ok o /\ l_attrs o = a.
Proof.
  unfold open_object, from_bytes. destruct (p (stream_of b)) as [[v|e] s]; cbn [fst]; [|discriminate]. intros E. assert (v = VObj cls a) as -> by congruence.
  eexists. split; reflexivity.
Qed.

Lemma lookup_app n a a' : lookup n (a ++ a') = match lookup n a with Some v => Some v | None => lookup n a' end.
Proof. induction a as [|[m v] a IH]; cbn [app lookup]; [reflexivity|]. destruct (String.eqb n m); auto. Qed.

Definition is_memo (n : string) : bool := String.prefix "_m_" n.

Lemma memo_name x : is_memo ("_m_" ++ x) = true.
Proof. unfold is_memo. cbn. destruct x; reflexivity. Qed.
Lemma memo_inj x y : ("_m_" ++ x)%string = ("_m_" ++ y)%string -> x = y.
Proof. cbn. congruence. Qed.

(** The object still is the one parsed from [b] with attributes [base], plus memos holding the values [val]. *)
Definition intact (b : bytes) (base : attrs) (val : string -> res pyval) (o : live) : Prop :=
  s_buf (l_io o) = b /\
  (forall n, is_memo n = false -> lookup n (l_attrs o) = lookup n base) /\
  (forall x, lookup ("_m_" ++ x) (l_attrs o) = None \/ exists v, lookup ("_m_" ++ x) (l_attrs o) = Some v /\ val x = Ok v).

(** One access of a property whose computation, on any such object and from any position, gives [val x]. *)
Lemma memo_intact b base val x compute o :
  (forall a s, (forall n, is_memo n = false -> lookup n a = lookup n base) -> s_buf s = b ->
     let '(r, s') := compute a s in r = val x /\ s_buf s' = b /\ (forall v, val x = Ok v -> s_pos s' = s_pos s)) ->
  intact b base val o ->
  let '(r, o') := memo x compute o in r = val x /\ intact b base val o' /\ (forall v, val x = Ok v -> s_pos (l_io o') = s_pos (l_io o)).
Proof.
  intros Hc [H1 [H2 H3]]. unfold memo. destruct (H3 x) as [Hn|[v [Hv Hval]]].
  - rewrite Hn. specialize (Hc (l_attrs o) (l_io o) H2 H1). destruct (compute (l_attrs o) (l_io o)) as [[v|e] s'].
    + destruct Hc as [E1 [E2 E3]]. split; [exact E1|]. split; [|exact E3]. split; [exact E2|]. split.
      * intros n Hm. cbn [l_attrs]. rewrite lookup_app, H2 by assumption. destruct (lookup n base); [reflexivity|].
        cbn [lookup]. destruct (String.eqb n ("_m_" ++ x)) eqn:E; [|reflexivity]. apply String.eqb_eq in E. subst n. rewrite memo_name in Hm. discriminate.
      * intros y. cbn [l_attrs]. rewrite lookup_app. destruct (H3 y) as [Hy|[w [Hw Hw']]].
        -- rewrite Hy. cbn [lookup]. destruct (String.eqb ("_m_" ++ y) ("_m_" ++ x)) eqn:E; [|left; reflexivity].
           apply String.eqb_eq, memo_inj in E. subst y. right. exists v. split; [reflexivity|]. symmetry. exact E1.
        -- rewrite Hw. right. exists w. auto.
    + destruct Hc as [E1 [E2 E3]]. split; [exact E1|]. split; [|exact E3]. split; [exact E2|]. split; assumption.
  - rewrite Hv. split; [symmetry; exact Hval|]. split; [|reflexivity]. split; [assumption|]. split; assumption.
Qed.

Lemma intact_seek rt b base val o n : intact b base val o -> intact b base val {| l_attrs := l_attrs o; l_io := snd (io_seek rt n (l_io o)) |}.
Proof. intros [H1 H2]. split; [|exact H2]. cbn [l_io]. rewrite keeps_seek. exact H1. Qed.

(** every access of every history gives the value and leaves the position *)
Lemma history_intact rt b base val props :
  (forall x o, intact b base val o -> let '(r, o') := props x o in r = val x /\ intact b base val o' /\ (forall v, val x = Ok v -> s_pos (l_io o') = s_pos (l_io o))) ->
  forall ops o, intact b base val o ->
  Forall (fun ob => ob_result ob = val (ob_name ob) /\ (forall v, ob_result ob = Ok v -> ob_after ob = ob_before ob)) (history rt props ops o).
Proof.
  intros Hs. induction ops as [|[x|n] ops IH]; intros o Ho; cbn [history]; [constructor| |].
  - specialize (Hs x o Ho). destruct (props x o) as [r o']. destruct Hs as [E1 [E2 E3]]. constructor; [split; [exact E1|]|apply IH, E2]. cbn [ob_result ob_after ob_before]. intros v ->. apply (E3 v). symmetry. exact E1.
  - apply IH, intact_seek, Ho.
Qed.

(** an object without memos is intact *)
Lemma intact_open b base val o : s_buf (l_io o) = b -> l_attrs o = base -> forallb (fun nv => negb (is_memo (fst nv))) base = true -> intact b base val o.
Proof.
  intros H1 H2 H3. split; [exact H1|]. split; [intros; rewrite H2; reflexivity|]. intros x. left. rewrite H2.
  clear - H3. induction base as [|[n v] base IH]; [reflexivity|]. cbn [forallb] in H3. apply andb_true_iff in H3 as [H H3]. cbn [lookup].
  destruct (String.eqb _ n) eqn:E; [|auto]. apply String.eqb_eq in E. subst n. cbn [fst] in H. rewrite memo_name in H. discriminate.
Qed.

(** an attribute an object lacks *)
Definition no_property (x : string) (o : live) : res pyval * live := (Err (AttributeError x), o).
Lemma no_property_intact b base val x o : val x = Err (AttributeError x) -> intact b base val o ->
  let '(r, o') := no_property x o in r = val x /\ intact b base val o' /\ (forall v, val x = Ok v -> s_pos (l_io o') = s_pos (l_io o)).
Proof. intros Hv Ho. unfold no_property. split; [auto|]. split; [exact Ho|reflexivity]. Qed.

Lemma stored_intact base a x v s : (forall n, is_memo n = false -> lookup n a = lookup n base) -> is_memo x = false -> lookup x base = Some v ->
  stored x a s = (Ok v, s).
Proof. intros H Hm Hl. unfold stored. rewrite H, Hl by assumption. reflexivity. Qed.
Lemma stored_int_intact base a x v s : (forall n, is_memo n = false -> lookup n a = lookup n base) -> is_memo x = false -> lookup x base = Some (VInt v) ->
  stored_int x a s = (Ok v, s).
Proof. intros H Hm Hl. unfold stored_int, bind. rewrite (stored_intact base a x (VInt v)) by assumption. reflexivity. Qed.

Lemma keeps_seq l : Forall (fun nm => keeps (snd nm)) l -> keeps (seq l).
Proof.
  induction 1 as [|[n m] l Hm Hl IH]; cbn [seq]; [apply keeps_ret|]. apply keeps_bind; [exact Hm|]. intros v. apply keeps_bind; [exact IH|]. intros a. apply keeps_ret.
Qed.

Ltac keeps1 :=
  lazymatch goal with
  | |- keeps (bind _ _) => apply keeps_bind; [|intros]
  | |- keeps (ret _) => apply keeps_ret
  | |- keeps (fail _) => apply keeps_fail
  | |- keeps (lift _) => apply keeps_lift
  | |- keeps align_to_byte => apply keeps_align
  | |- keeps (read_bytes _ _) => apply keeps_read_bytes
  | |- keeps (read_bytes_full _) => apply keeps_full
  | |- keeps (read_bits _) => apply keeps_bits
  | |- keeps (is_eof _) => apply keeps_eof
  | |- keeps io_pos => apply keeps_pos
  | |- keeps io_size => apply keeps_size
  | |- keeps (io_seek _ _) => apply keeps_seek
  | |- keeps (seq _) => apply keeps_seq; repeat (apply Forall_cons; [cbn [snd]|]); try apply Forall_nil
  | |- keeps (if ?c then _ else _) => destruct c
  | |- keeps (match ?x with _ => _ end) => destruct x
  | |- keeps ?m => let h := eval red in m in change (keeps h)
  end.
Ltac keepsok := repeat (cbv beta; keeps1).
