(** C65, the accesses that move the stream. *)
From Verif Require Import PyBase Runtime Codec Spec Enums RuntimeProofs Getters EtsiModel HomebrewModel HyteraModel MotorolaModel LazyModel EtsiSpec EtsiProofs EtsiHeader EtsiCor KsySchema SessionModel SessionProofs ThreadModel ThreadProofs ThreadSafe ThreadAlone.
Open Scope string_scope.
Open Scope list_scope.
Open Scope Z_scope.

Local Transparent slice.
Lemma read_cases rt n s : 0 <= n ->
  let k := Z.of_nat (s_pos s) in
  (k + n <= blen (s_buf s) /\ fst (read_bytes rt n s) = Ok (slice (s_buf s) k n) /\ s_pos (snd (read_bytes rt n s)) = (s_pos s + Z.to_nat n)%nat) \/
  ((n = 0 \/ blen (s_buf s) < k + n) /\ (fst (read_bytes rt n s) = Err EOFError \/ n = 0)).
Proof.
  intros N. cbv zeta. unfold read_bytes, raw_read_bytes, io_read, slice. destruct (Z.ltb_spec n 0); [lia|].
  assert (A : s_pos (auto_align rt s) = s_pos s /\ s_buf (auto_align rt s) = s_buf s) by (destruct rt; split; reflexivity). destruct A as [-> ->]. cbv zeta. rewrite Nat2Z.id.
  assert (L : List.length (skipn (s_pos s) (s_buf s)) = (List.length (s_buf s) - s_pos s)%nat) by apply skipn_length. unfold blen in *. rewrite L.
  destruct (Z.leb_spec (Z.of_nat (List.length (s_buf s) - s_pos s)) n).
  - rewrite L. destruct (Z.ltb_spec (Z.of_nat (List.length (s_buf s) - s_pos s)) n).
    + right. split; [right; lia|left; reflexivity].
    + destruct (Z.eq_dec n 0) as [->|]; [right; auto|]. left. split; [lia|]. cbn [fst snd]. rewrite firstn_all2 by lia. split; [reflexivity|]. destruct rt; cbn [auto_align align_state set_pos s_pos]; lia.
  - rewrite firstn_length, L. destruct (Z.ltb_spec (Z.of_nat (Nat.min (Z.to_nat n) (List.length (s_buf s) - s_pos s))) n); [lia|]. left. split; [lia|]. cbn [fst snd]. split; [reflexivity|]. destruct rt; cbn [auto_align align_state set_pos s_pos]; lia.
Qed.
Local Opaque slice.
Lemma seek_pos rt k s : s_pos (snd (io_seek rt k s)) = Z.to_nat k. Proof. destruct rt; reflexivity. Qed.
Lemma seek_buf rt k s : s_buf (snd (io_seek rt k s)) = s_buf s. Proof. destruct rt; reflexivity. Qed.

(** ** [data] *)
Section Data.
Context (rt : runtime) (b : bytes) (o0 : live) (f : pyval).
Hypothesis (HB : s_buf (l_io o0) = b) (HM : lookup "_m_data" (l_attrs o0) = None) (HR : lookup "_raw__m_data" (l_attrs o0) = None) (HF : lookup "data_packet_format" (l_attrs o0) = Some f).
Definition body (k : Z) : res pyval := from_bytes (data_header_body rt f) (slice b k 12).
Definition some_body (v : pyval) : Prop := exists k, 0 <= k /\ k + 12 <= blen b /\ body k = Ok v.
Definition DInv (o : live) : Prop := s_buf (l_io o) = b /\
  (forall n, n <> "_m_data" -> n <> "_raw__m_data" -> lookup n (l_attrs o) = lookup n (l_attrs o0)) /\
  (forall v, lookup "_m_data" (l_attrs o) = Some v -> some_body v) /\
  (forall v, lookup "_raw__m_data" (l_attrs o) = Some v -> exists k, 0 <= k /\ k + 12 <= blen b /\ v = VBytes (slice b k 12)).
Definition DR (x : string) (r : res pyval) : Prop :=
  if String.eqb x "data" then r = Err EOFError \/ exists v, r = Ok v /\ some_body v else r = fst (ask rt "DmrDataHeader" x o0).
Lemma dinv0 : DInv o0.
Proof. split; [exact HB|]. split; [reflexivity|]. rewrite HM, HR. split; discriminate. Qed.
Lemma leads_io {A} (m : M A) (Q : res pyval -> Prop) ks n (k : A -> prog) : (forall s, s_buf (snd (m s)) = s_buf s) ->
  (forall o, DInv o -> match fst (m (l_io o)) with Ok x => leads DInv Q ks n (k x) | Err e => Q (Err e) end) -> leads DInv Q ks (S n) (on_io m k).
Proof.
  intros B K. unfold on_io. apply (L_step DInv Q ks (fun _ => ks)).
  - intros o [I1 I2] H. split; [split; [cbn [l_io]; rewrite B; exact I1|exact I2]|]. split; [exact H|]. intros n' X. exact X.
  - intros o I H. specialize (K o I). destruct (fst (m (l_io o))); [exact K|now constructor].
Qed.
Lemma data_leads : leads DInv (DR "data") [] 10 (data_code rt).
Proof.
  assert (C : forall o v, DInv o -> lookup ("_m_" ++ "data") (l_attrs o) = Some v -> DR "data" (Ok v)) by (intros o v [_ [_ [I _]]] L; right; exists v; split; [reflexivity|exact (I v L)]).
  unfold data_code. apply leads_cached; [exact C|lia|]. apply leads_io; [reflexivity|]. intros o1 I1. cbn [io_pos fst]. apply leads_io; [intros s; apply seek_buf|]. intros o2 I2. change (fst (io_seek rt 0 (l_io o2))) with (@Ok unit tt). cbv iota.
  apply leads_local. intros o3 I3 _. destruct I3 as [_ [I3 _]]. rewrite I3 by discriminate. rewrite HF. apply leads_io; [intros s; apply read_buf|]. intros o4 I4.
  pose proof (read_cases rt 12 (l_io o4) ltac:(lia)) as R. cbv zeta in R. destruct R as [[R1 [R2 _]]|[_ [R|R]]]; [|rewrite R; left; reflexivity|discriminate].
  rewrite R2. destruct I4 as [I4 _]. rewrite I4 in *. set (k := Z.of_nat (s_pos (l_io o4))) in *. assert (K0 : 0 <= k) by lia.
  apply leads_assign.
  { intros o [J1 [J2 [J3 J4]]]. split; [exact J1|]. cbn [l_attrs]. split; [|split].
    - intros n N1 N2. rewrite lookup_set. destruct (String.eqb_spec n "_raw__m_data"); [contradiction|now apply J2].
    - intros v. rewrite lookup_set. exact (J3 v).
    - intros v. rewrite lookup_set. cbn. intros E. injection E as <-. exists k. auto. }
  apply leads_local. intros o5 I5 H5. specialize (H5 _ (or_introl eq_refl)). destruct (lookup "_raw__m_data" (l_attrs o5)) as [w|] eqn:W; [|contradiction].
  destruct I5 as [_ [_ [_ I5]]]. destruct (I5 w W) as [j [J1 [J2 ->]]].
  destruct (body_total rt f (slice b j 12)) as [v V]; [apply slice_length; lia|]. rewrite V.
  apply leads_assign.
  { intros o [L1 [L2 [L3 L4]]]. split; [exact L1|]. cbn [l_attrs]. split; [|split].
    - intros n N1 N2. rewrite lookup_set. destruct (String.eqb_spec n "_m_data"); [contradiction|now apply L2].
    - intros u. rewrite lookup_set. cbn. intros E. injection E as <-. exists j. auto.
    - intros u. rewrite lookup_set. exact (L4 u). }
  apply leads_io; [intros s; apply seek_buf|]. intros o6 _. match goal with |- context [fst (io_seek ?a ?b ?c)] => change (fst (io_seek a b c)) with (@Ok unit tt) end. cbv iota.
  apply (leads_has _ _ ["_m_data"]); [apply leads_return; exact C|]. intros y [<-|[]]. left. reflexivity.
Qed.
Lemma data_code_leads x : is_cache x = false -> x <> "_raw__m_data" -> leads DInv (DR x) [] 10 (code rt "DmrDataHeader" x).
Proof.
  intros X X2. destruct (String.eqb_spec x "data") as [->|N]; [exact data_leads|].
  assert (F : find (fun e => String.eqb (fst (fst e)) "DmrDataHeader" && String.eqb (snd (fst e)) x) (properties rt) = None).
  { destruct (find _ (properties rt)) as [e|] eqn:F; [|reflexivity]. exfalso. apply find_key in F. destruct F as [F1 F2].
    assert (A : Forall (fun e => fst (fst e) = "DmrDataHeader" -> snd (fst e) = "data") (properties rt)) by (unfold properties; repeat (apply Forall_cons; [cbn [fst snd]; first [reflexivity|discriminate]|]); apply Forall_nil).
    pose proof (proj1 (Forall_forall _ _) A e F2) as K. destruct e as [[c1 x1] g]. cbn [fst snd] in *. injection F1 as F1 F3. apply N. rewrite <- F3. exact (K F1). }
  assert (code rt "DmrDataHeader" x = local (fun o => Done (match lookup x (l_attrs o) with Some v => Ok v | None => Err (AttributeError x) end))) as ->.
  { unfold code. rewrite F. destruct (String.eqb_spec x "data"); [contradiction|reflexivity]. }
  apply (leads_more _ _ _ 1); [|lia]. apply leads_local. intros o [_ [I _]] _. constructor. unfold DR, ask. destruct (String.eqb_spec x "data"); [contradiction|]. rewrite F. cbn [fst]. rewrite I; [reflexivity| |exact X2]. intros ->. discriminate.
Qed.
End Data.

(** Two threads, both reading [data]: the first stops before its read, the second reads, then the first goes on. *)
Definition data_schedule : list nat := [0; 0; 0; 0; 1; 1; 1; 1; 1; 1; 0; 0; 1; 1; 1; 1; 1; 1; 0; 0; 0; 0; 0; 0]%nat.
Definition th (x : string) (p : prog) : thread := {| t_now := Some (x, p); t_todo := []; t_log := [] |}.
Definition ended (x : string) (r : res pyval) : thread := {| t_now := None; t_todo := []; t_log := [(x, r)] |}.
Section Runs.
Context (rt : runtime) (c : string).
Lemma new0 x u sch o : threads_run rt c (0%nat :: sch) [new_thread [x]; u] o = threads_run rt c sch [th x (code rt c x); u] o. Proof. reflexivity. Qed.
Lemma new1 x u sch o : threads_run rt c (1%nat :: sch) [u; new_thread [x]] o = threads_run rt c sch [u; th x (code rt c x)] o. Proof. reflexivity. Qed.
Lemma end0 x r u sch o : threads_run rt c (0%nat :: sch) [th x (Done r); u] o = threads_run rt c sch [ended x r; u] o. Proof. reflexivity. Qed.
Lemma end1 x r u sch o : threads_run rt c (1%nat :: sch) [u; th x (Done r)] o = threads_run rt c sch [u; ended x r] o. Proof. reflexivity. Qed.
Lemma idle0 x r u sch o : threads_run rt c (0%nat :: sch) [ended x r; u] o = threads_run rt c sch [ended x r; u] o. Proof. reflexivity. Qed.
Lemma io0 {A} x (m : M A) k u sch a s : threads_run rt c (0%nat :: sch) [th x (on_io m k); u] (mk a s) =
  threads_run rt c sch [th x (match fst (m s) with Ok y => k y | Err e => Done (Err e) end); u] (mk a (snd (m s))). Proof. reflexivity. Qed.
Lemma io1 {A} x (m : M A) k u sch a s : threads_run rt c (1%nat :: sch) [u; th x (on_io m k)] (mk a s) =
  threads_run rt c sch [u; th x (match fst (m s) with Ok y => k y | Err e => Done (Err e) end)] (mk a (snd (m s))). Proof. reflexivity. Qed.
Lemma local0 x k u sch o : threads_run rt c (0%nat :: sch) [th x (local k); u] o = threads_run rt c sch [th x (k o); u] o. Proof. reflexivity. Qed.
Lemma local1 x k u sch o : threads_run rt c (1%nat :: sch) [u; th x (local k)] o = threads_run rt c sch [u; th x (k o)] o. Proof. reflexivity. Qed.
Lemma assign0 x n v p u sch a s : threads_run rt c (0%nat :: sch) [th x (assign n v p); u] (mk a s) = threads_run rt c sch [th x p; u] (mk (set_attr n v a) s). Proof. reflexivity. Qed.
Lemma assign1 x n v p u sch a s : threads_run rt c (1%nat :: sch) [u; th x (assign n v p)] (mk a s) = threads_run rt c sch [u; th x p] (mk (set_attr n v a) s). Proof. reflexivity. Qed.
Lemma unless0 x y p u sch o : lookup ("_m_" ++ y)%string (l_attrs o) = None -> threads_run rt c (0%nat :: sch) [th x (unless_cached y p); u] o = threads_run rt c sch [th x p; u] o.
Proof. intros E. unfold unless_cached. rewrite local0, E. reflexivity. Qed.
Lemma unless1 x y p u sch o : lookup ("_m_" ++ y)%string (l_attrs o) = None -> threads_run rt c (1%nat :: sch) [u; th x (unless_cached y p)] o = threads_run rt c sch [u; th x p] o.
Proof. intros E. unfold unless_cached. rewrite local1, E. reflexivity. Qed.
Lemma return0 x y v u sch o : lookup ("_m_" ++ y)%string (l_attrs o) = Some v -> threads_run rt c (0%nat :: sch) [th x (return_cached y); u] o = threads_run rt c sch [th x (Done (Ok v)); u] o.
Proof. intros E. unfold return_cached. rewrite local0, E. reflexivity. Qed.
Lemma return1 x y v u sch o : lookup ("_m_" ++ y)%string (l_attrs o) = Some v -> threads_run rt c (1%nat :: sch) [u; th x (return_cached y)] o = threads_run rt c sch [u; th x (Done (Ok v))] o.
Proof. intros E. unfold return_cached. rewrite local1, E. reflexivity. Qed.
End Runs.
Lemma fst_pos s : fst (io_pos s) = Ok (Z.of_nat (s_pos s)). Proof. reflexivity. Qed.
Lemma snd_pos s : snd (io_pos s) = s. Proof. reflexivity. Qed.
Lemma fst_seek rt k s : fst (io_seek rt k s) = Ok tt. Proof. reflexivity. Qed.
Lemma read_at rt n s b k : s_buf s = b -> Z.of_nat (s_pos s) = k -> 0 < n -> k + n <= blen b -> fst (read_bytes rt n s) = Ok (slice b k n) /\ Z.of_nat (s_pos (snd (read_bytes rt n s))) = k + n.
Proof.
  intros <- <- N L. destruct (read_cases rt n s ltac:(lia)) as [[_ [H1 H2]]|[[H|H] _]]; [|lia|lia]. split; [exact H1|]. rewrite H2. lia.
Qed.
Lemma read_short rt n s b k : s_buf s = b -> Z.of_nat (s_pos s) = k -> 0 < n -> blen b < k + n -> fst (read_bytes rt n s) = Err EOFError.
Proof. intros <- <- N L. destruct (read_cases rt n s ltac:(lia)) as [[H _]|[_ [H|H]]]; [lia|exact H|lia]. Qed.

Lemma data_race rt b o f : s_buf (l_io o) = b -> lookup "_m_data" (l_attrs o) = None -> lookup "data_packet_format" (l_attrs o) = Some f -> 12 <= blen b ->
  let right := from_bytes (data_header_body rt f) (slice b 0 12) in
  let wrong := from_bytes (data_header_body rt f) (slice b 12 12) in
  let '(ts, o') := threads_run rt "DmrDataHeader" data_schedule [new_thread ["data"]; new_thread ["data"]] o in
  ts = [ended "data" (if blen b <? 24 then Err EOFError else wrong); ended "data" right] /\ fst (ask rt "DmrDataHeader" "data" o') = (if blen b <? 24 then right else wrong).
Proof.
  intros HB HM HF HL. cbv zeta. unfold data_schedule. destruct o as [a s]. cbn [l_io l_attrs] in *. change {| l_attrs := a; l_io := s |} with (mk a s).
  destruct (body_total rt f (slice b 0 12)) as [v V]; [apply slice_length; lia|]. rewrite V.
  rewrite new0. change (code rt "DmrDataHeader" "data") with (data_code rt). unfold data_code at 1. rewrite unless0 by exact HM. rewrite io0, fst_pos, snd_pos. rewrite io0, fst_seek.
  set (sA := snd (io_seek rt 0 s)). assert (A1 : s_buf sA = b) by (unfold sA; now rewrite seek_buf).
  rewrite new1. change (code rt "DmrDataHeader" "data") with (data_code rt). unfold data_code. rewrite unless1 by exact HM. rewrite io1, fst_pos, snd_pos. rewrite io1, fst_seek.
  set (sB := snd (io_seek rt 0 sA)). assert (B1 : s_buf sB = b) by (unfold sB; now rewrite seek_buf). assert (B2 : Z.of_nat (s_pos sB) = 0) by (unfold sB; rewrite seek_pos; reflexivity). clearbody sB.
  rewrite local1. cbn [mk l_attrs]. rewrite HF. fold (mk a sB). rewrite io1. destruct (read_at rt 12 sB b 0 B1 B2 ltac:(lia) ltac:(lia)) as [R1 R2]. rewrite R1. set (s1 := snd (read_bytes rt 12 sB)) in *. assert (C1 : s_buf s1 = b) by (unfold s1; now rewrite read_buf). clearbody s1. change (0 + 12) with 12 in R2.
  rewrite local0. cbn [mk l_attrs]. rewrite HF. fold (mk a s1). rewrite io0.
  assert (T : forall s2 : stream, lookup ("_m_" ++ "data")%string (l_attrs (mk (set_attr "_m_data" v (set_attr "_raw__m_data" (VBytes (slice b 0 12)) a)) s2)) = Some v) by (intros s2; cbn [mk l_attrs append]; now rewrite lookup_set).
  destruct (Z.ltb_spec (blen b) 24) as [SH|LO].
  - rewrite (read_short rt 12 s1 b 12 C1 R2) by lia. set (s2 := snd (read_bytes rt 12 s1)). clearbody s2.
    rewrite assign1. rewrite local1. cbn [mk l_attrs]. rewrite lookup_set, String.eqb_refl. rewrite V. try match goal with |- context [threads_run _ _ _ _ {| l_attrs := ?x; l_io := ?y |}] => change {| l_attrs := x; l_io := y |} with (mk x y) end.
    rewrite assign1, io1, fst_seek. rewrite (return1 _ _ _ _ v) by apply T. rewrite end1, end0, !idle0. cbn [threads_run]. split; [reflexivity|]. apply ask_cached; [cbn; tauto|apply T].
  - destruct (read_at rt 12 s1 b 12 C1 R2 ltac:(lia) ltac:(lia)) as [W1 _]. rewrite W1. set (s2 := snd (read_bytes rt 12 s1)). clearbody s2.
    destruct (body_total rt f (slice b 12 12)) as [w W]; [apply slice_length; lia|]. rewrite W.
    rewrite assign1. rewrite local1. cbn [mk l_attrs]. rewrite lookup_set, String.eqb_refl. rewrite V. try match goal with |- context [threads_run _ _ _ _ {| l_attrs := ?x; l_io := ?y |}] => change {| l_attrs := x; l_io := y |} with (mk x y) end.
    rewrite assign1, io1, fst_seek. rewrite (return1 _ _ _ _ v) by apply T. rewrite end1.
    rewrite assign0. rewrite local0. cbn [mk l_attrs]. rewrite lookup_set, String.eqb_refl. rewrite W. try match goal with |- context [threads_run _ _ _ _ {| l_attrs := ?x; l_io := ?y |}] => change {| l_attrs := x; l_io := y |} with (mk x y) end.
    rewrite assign0, io0, fst_seek. rewrite (return0 _ _ _ _ w) by (cbn [mk l_attrs append]; now rewrite lookup_set). rewrite end0. cbn [threads_run]. split; [reflexivity|]. apply ask_cached; [cbn; tauto|cbn [mk l_attrs append]; now rewrite lookup_set].
Qed.

(** ** Properties with [pos] *)
Definition at_schedule : list nat := [0; 0; 0; 0; 1; 1; 1; 1; 1; 0; 1; 1; 1; 1; 0; 0; 0; 0]%nat.
Lemma at_race rt c x k m b v w o : code rt c x = at_code rt x k m -> In (c, x) file_properties -> s_buf (l_io o) = b -> lookup ("_m_" ++ x)%string (l_attrs o) = None ->
  (forall s, s_buf s = b -> s_pos s = Z.to_nat k -> exists s1, m s = (Ok v, s1) /\ exists s2, m s1 = (Ok w, s2)) ->
  let '(ts, o') := threads_run rt c at_schedule [new_thread [x]; new_thread [x]] o in
  ts = [ended x (Ok w); ended x (Ok v)] /\ fst (ask rt c x o') = Ok w.
Proof.
  intros HC HI HB HM RD. unfold at_schedule. destruct o as [a s]. cbn [l_io l_attrs] in *. change {| l_attrs := a; l_io := s |} with (mk a s).
  rewrite new0, HC. unfold at_code at 1. rewrite unless0 by exact HM. rewrite io0, fst_pos, snd_pos. rewrite io0, fst_seek.
  set (sA := snd (io_seek rt k s)). assert (A1 : s_buf sA = b) by (unfold sA; now rewrite seek_buf).
  rewrite new1, HC. unfold at_code. rewrite unless1 by exact HM. rewrite io1, fst_pos, snd_pos. rewrite io1, fst_seek.
  set (sB := snd (io_seek rt k sA)). assert (B1 : s_buf sB = b) by (unfold sB; now rewrite seek_buf). assert (B2 : s_pos sB = Z.to_nat k) by (unfold sB; now rewrite seek_pos). clearbody sB.
  destruct (RD sB B1 B2) as [s1 [R1 [s2 R2]]]. rewrite io1, R1. cbn [fst snd]. rewrite io0, R2. cbn [fst snd].
  rewrite assign1, io1, fst_seek. erewrite return1 by (cbn [mk l_attrs]; rewrite lookup_set, String.eqb_refl; reflexivity). rewrite end1.
  rewrite assign0, io0, fst_seek. erewrite return0 by (cbn [mk l_attrs]; rewrite lookup_set, String.eqb_refl; reflexivity). rewrite end0. cbn [threads_run]. split; [reflexivity|]. apply ask_cached; [exact HI|cbn [mk l_attrs]; now rewrite lookup_set, String.eqb_refl].
Qed.
Lemma read_two rt n b k s : s_buf s = b -> Z.of_nat (s_pos s) = k -> 0 < n -> k + 2 * n <= blen b ->
  exists s1, read_bytes rt n s = (Ok (slice b k n), s1) /\ exists s2, read_bytes rt n s1 = (Ok (slice b (k + n) n), s2).
Proof.
  intros B P N L. destruct (read_at rt n s b k B P N ltac:(lia)) as [X1 X2]. pose proof (read_buf rt n s) as X3. destruct (read_bytes rt n s) as [r s1]. cbn [fst snd] in *. subst r. exists s1. split; [reflexivity|].
  destruct (read_at rt n s1 b (k + n) ltac:(congruence) X2 N ltac:(lia)) as [Y1 _]. destruct (read_bytes rt n s1) as [r s2]. cbn [fst] in Y1. subst r. exists s2. reflexivity.
Qed.
Lemma opcode_race rt b o : s_buf (l_io o) = b -> lookup "_m_opcode" (l_attrs o) = None -> 2 <= blen b ->
  let op k := resolve_enum LocationProtocol_LpGeneralTypes (ubits b (8 * k) 8) in
  let '(ts, o') := threads_run rt "LocationProtocol" at_schedule [new_thread ["opcode"]; new_thread ["opcode"]] o in
  ts = [ended "opcode" (Ok (op 1)); ended "opcode" (Ok (op 0))] /\ fst (ask rt "LocationProtocol" "opcode" o') = Ok (op 1).
Proof.
  intros HB HM HL. cbv zeta. apply (at_race rt "LocationProtocol" "opcode" 0 (venum LocationProtocol_LpGeneralTypes (read_u1 rt)) b); [reflexivity|cbn; tauto|exact HB|exact HM|].
  intros s B P. destruct (read_two rt 1 b 0 s B ltac:(rewrite P; reflexivity) ltac:(lia) ltac:(lia)) as [s1 [R1 [s2 R2]]].
  exists s1. unfold venum, read_u1, bind, ret. rewrite R1. split; [now rewrite be_int_slice by lia|]. exists s2. rewrite R2. now rewrite be_int_slice by lia.
Qed.
Lemma fifth_race rt c b o v w : c = "Homebrew2015" \/ c = "Mmdvm2020" -> s_buf (l_io o) = b -> lookup "_m_fifth_letter" (l_attrs o) = None -> 6 <= blen b ->
  py_decode ASCII (slice b 4 1) = Ok v -> py_decode ASCII (slice b 5 1) = Ok w ->
  let '(ts, o') := threads_run rt c at_schedule [new_thread ["fifth_letter"]; new_thread ["fifth_letter"]] o in
  ts = [ended "fifth_letter" (Ok (VStr w)); ended "fifth_letter" (Ok (VStr v))] /\ fst (ask rt c "fifth_letter" o') = Ok (VStr w).
Proof.
  intros HC HB HM HL V W. apply (at_race rt c "fifth_letter" 4 (s <- read_str rt ASCII 1;; ret (VStr s)) b); [destruct HC; subst c; reflexivity|destruct HC; subst c; cbn; tauto|exact HB|exact HM|].
  intros s B P. destruct (read_two rt 1 b 4 s B ltac:(rewrite P; reflexivity) ltac:(lia) ltac:(lia)) as [s1 [R1 [s2 R2]]].
  exists s1. unfold read_str, bind, ret, lift. rewrite R1, V. split; [reflexivity|]. exists s2. change (4 + 1) with 5 in R2. rewrite R2, W. reflexivity.
Qed.
