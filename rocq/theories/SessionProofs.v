(** Support for C63: what a property access does to the file, and that accesses do not influence each other. *)
From Verif Require Import PyBase Runtime Codec Spec RuntimeProofs Enums Getters EtsiModel HomebrewModel HyteraModel MotorolaModel LazyModel EtsiSpec EtsiProofs EtsiHeader KsySchema SessionModel.
Open Scope string_scope.
Open Scope list_scope.
Open Scope Z_scope.

Lemma lookup_other x m v (a : attrs) : x <> m -> lookup x (a ++ [(m, v)]) = lookup x a.
Proof.
  intros N. induction a as [|[n w] a IH]; cbn [lookup app]; [|now rewrite IH].
  destruct (String.eqb_spec x m); [contradiction|reflexivity].
Qed.
Lemma lookup_last x v (a : attrs) : lookup x a = None -> lookup x (a ++ [(x, v)]) = Some v.
Proof. induction a as [|[n w] a IH]; cbn [lookup app]; [now rewrite String.eqb_refl|]. destruct (String.eqb x n); [discriminate|auto]. Qed.

(** A computation on attributes only. *)
Definition pure {A} (c : attrs -> M A) : Prop :=
  exists r : attrs -> res A, (forall a s, c a s = (r a, s)) /\ (forall a m v, is_cache m = true -> r (a ++ [(m, v)]) = r a).
Lemma pure_ret {A} (x : A) : pure (fun _ => ret x). Proof. exists (fun _ => Ok x). split; reflexivity. Qed.
Lemma pure_fail {A} e : pure (fun _ => @fail A e). Proof. exists (fun _ => Err e). split; reflexivity. Qed.
Lemma pure_lift {A} (r : res A) : pure (fun _ => lift r). Proof. exists (fun _ => r). split; reflexivity. Qed.
Lemma pure_bind {A B} (c : attrs -> M A) (k : A -> attrs -> M B) : pure c -> (forall x, pure (k x)) -> pure (fun a => bind (c a) (fun x => k x a)).
Proof.
  intros [r [R1 R2]] K. assert (exists f : A -> attrs -> res B, True) as _ by (exists (fun _ _ => Err EOFError); exact I).
  exists (fun a => match r a with Ok x => fst (k x a (stream_of [])) | Err e => Err e end). split.
  - intros a s. unfold bind. rewrite R1. destruct (r a) as [x|e]; [|reflexivity]. destruct (K x) as [q [Q1 Q2]]. rewrite !Q1. reflexivity.
  - intros a m v H. rewrite (R2 a m v H). destruct (r a) as [x|e]; [|reflexivity]. destruct (K x) as [q [Q1 Q2]]. rewrite !Q1. apply Q2, H.
Qed.
Lemma pure_stored x : is_cache x = false -> pure (stored x).
Proof.
  intros H. exists (fun a => match lookup x a with Some v => Ok v | None => Err (AttributeError x) end). unfold stored. split.
  - intros a s. destruct (lookup x a); reflexivity.
  - intros a m v M. rewrite lookup_other; [reflexivity|congruence].
Qed.
Lemma pure_int x : is_cache x = false -> pure (stored_int x).
Proof. intros H. unfold stored_int. apply (pure_bind (stored x) (fun v _ => match v with VInt z => ret z | _ => fail TypeError end)); [now apply pure_stored|]. intros []; first [apply pure_ret|apply pure_fail]. Qed.
Lemma pure_attribute x v : pure (fun _ => attribute x v).
Proof. unfold attribute. destruct (getattr x v); [apply pure_ret|apply pure_fail]. Qed.
Lemma pure_iob v : pure (fun _ => int_of_bool v). Proof. destruct v; first [apply pure_ret|apply pure_fail]. Qed.
Lemma pure_num v : pure (fun _ => number_of v). Proof. destruct v; first [apply pure_ret|apply pure_fail]. Qed.

Ltac pu := repeat lazymatch goal with
  | |- pure (fun a => bind (stored ?x a) (fun y => @?k a y)) => let k' := constr:(fun y a => k a y) in let k' := eval cbv beta in k' in apply (pure_bind (stored x) k'); [apply pure_stored; reflexivity|cbv beta; intros ?]
  | |- pure (fun a => bind (stored_int ?x a) (fun y => @?k a y)) => let k' := constr:(fun y a => k a y) in let k' := eval cbv beta in k' in apply (pure_bind (stored_int x) k'); [apply pure_int; reflexivity|cbv beta; intros ?]
  | |- pure (fun a => bind ?m (fun y => @?k a y)) => let k' := constr:(fun y a => k a y) in let k' := eval cbv beta in k' in apply (pure_bind (fun _ => m) k'); [first [apply pure_attribute|apply pure_iob|apply pure_num|apply pure_lift|idtac]|cbv beta; intros ?]
  | |- pure (fun _ => ret _) => apply pure_ret
  | |- pure (fun _ => fail _) => apply pure_fail
  | |- pure (fun _ => match ?v with VNone => _ | VInt _ => _ | VBool _ => _ | VBytes _ => _ | VStr _ => _ | VEnum _ _ _ => _ | VList _ => _ | VObj _ _ => _ end) => destruct v
  | |- pure (fun _ => if ?b then _ else _) => destruct b
  | |- pure (fun a => if ?b then _ else _) => destruct b
  end.

(** What is needed of the computation behind a memo: it depends on the contents of the file, not on its position nor on
    the bit buffer; it ignores caches; when it succeeds, the position is what it was. *)
Record steady (c : attrs -> M pyval) : Prop := {
  st_file : forall a s s', s_buf s = s_buf s' -> fst (c a s) = fst (c a s');
  st_cache : forall a m v s, is_cache m = true -> fst (c (a ++ [(m, v)]) s) = fst (c a s);
  st_pos : forall a s v s', c a s = (Ok v, s') -> s_pos s' = s_pos s /\ s_buf s' = s_buf s }.
Lemma pure_steady c : pure c -> steady c.
Proof.
  intros [r [R1 R2]]. split.
  - intros a s s' _. now rewrite !R1.
  - intros a m v s H. rewrite !R1. cbn [fst]. now apply R2.
  - intros a s v s' E. rewrite R1 in E. injection E as _ <-. auto.
Qed.

Lemma read_after_seek rt n k s s' : s_buf s = s_buf s' ->
  fst (read_bytes rt n (snd (io_seek rt k s))) = fst (read_bytes rt n (snd (io_seek rt k s'))).
Proof.
  intros E. unfold read_bytes, raw_read_bytes, io_seek. cbn [snd]. destruct (n <? 0); [reflexivity|].
  unfold io_read. destruct rt; cbn [auto_align align_state set_pos s_pos s_buf]; rewrite E; cbv zeta; destruct (blen _ <? n); reflexivity.
Qed.
Lemma read_buf rt n s : s_buf (snd (read_bytes rt n s)) = s_buf s.
Proof. unfold read_bytes, raw_read_bytes. destruct (n <? 0); [destruct rt; reflexivity|]. unfold io_read. destruct rt; cbn [auto_align align_state set_pos s_pos s_buf]; cbv zeta; destruct (blen _ <? n); reflexivity. Qed.

(** save the position; seek [k]; read [n] bytes; decode; seek back *)
Definition peek (rt : runtime) (k n : Z) (f : bytes -> res pyval) : M pyval :=
  pos_ <- io_pos;; io_seek rt k;;; x <- read_bytes rt n;; v <- lift (f x);; io_seek rt pos_;;; ret v.
Lemma peek_file rt k n f s s' : s_buf s = s_buf s' -> fst (peek rt k n f s) = fst (peek rt k n f s').
Proof.
  intros E. unfold peek, bind, io_pos. change (io_seek rt k s) with (@Ok unit tt, snd (io_seek rt k s)). change (io_seek rt k s') with (@Ok unit tt, snd (io_seek rt k s')). cbv beta iota.
  pose proof (read_after_seek rt n k s s' E) as R. destruct (read_bytes rt n (snd (io_seek rt k s))) as [[x|e] s1], (read_bytes rt n (snd (io_seek rt k s'))) as [[y|e'] s2]; cbn [fst] in R; try discriminate; [|cbn [fst]; congruence].
  assert (x = y) as -> by congruence. unfold lift. destruct (f y); reflexivity.
Qed.
Lemma peek_pos rt k n f s v s' : peek rt k n f s = (Ok v, s') -> s_pos s' = s_pos s /\ s_buf s' = s_buf s.
Proof.
  unfold peek, bind, io_pos. change (io_seek rt k s) with (@Ok unit tt, snd (io_seek rt k s)). cbv beta iota.
  pose proof (read_buf rt n (snd (io_seek rt k s))) as R. destruct (read_bytes rt n (snd (io_seek rt k s))) as [[x|e] s1]; [|discriminate]. cbn [snd] in R.
  unfold lift. destruct (f x); [|discriminate]. unfold io_seek, ret. intros E. injection E as _ <-.
  split; [destruct rt; cbn [set_pos s_pos]; lia|]. destruct rt; cbn [set_pos s_buf auto_align align_state] in *; exact R.
Qed.
Lemma peek_steady rt k n f c : (forall a s, c a s = peek rt k n f s) -> steady c.
Proof.
  intros H. split; intros.
  - rewrite !H. now apply peek_file.
  - now rewrite !H.
  - rewrite H in H0. eapply peek_pos, H0.
Qed.
Lemma body_steady rt : steady (fun a => f <- stored "data_packet_format" a;; data_header_compute rt f).
Proof.
  assert (P : forall f s, data_header_compute rt f s = peek rt 0 12 (fun raw => from_bytes (data_header_body rt f) raw) s) by reflexivity.
  split.
  - intros a s s' E. unfold stored, bind, fail, ret. destruct (lookup "data_packet_format" a); [|reflexivity]. rewrite !P. now apply peek_file.
  - intros a m v s H. unfold stored, bind, fail, ret. rewrite lookup_other by (intros X; subst m; discriminate). destruct (lookup "data_packet_format" a); [|reflexivity]. now rewrite !P.
  - intros a s v s'. unfold stored, bind, fail, ret. destruct (lookup "data_packet_format" a); [|discriminate]. rewrite P. apply peek_pos.
Qed.

(** Every property but RTP's two is a memo of a steady computation. *)
Definition memo_property (e : string * string * (live -> res pyval * live)) : Prop :=
  exists c, (forall o, snd e o = memo (snd (fst e)) c o) /\ steady c.
Ltac use_pure := lazymatch goal with |- memo_property (_, _, ?g) => let g' := eval unfold g in g in
   lazymatch g' with
   | memo _ ?c => exists c; split; [intros o; reflexivity|apply pure_steady; pu]
   | fun o => memo _ ?c o => exists c; split; [intros o; reflexivity|apply pure_steady; pu] end end.
Lemma all_memo rt : Forall (fun e => memo_property e \/ fst (fst e) = "RealTimeTransportProtocol") (properties rt).
Proof.
  unfold properties. repeat (apply Forall_cons; [first [right; reflexivity|left]|]); [..|apply Forall_nil].
  - exists (fun _ => x <- Homebrew2015_fifth_letter rt;; ret (VStr x)). split; [reflexivity|]. apply (peek_steady rt 4 1 (fun x => rmap VStr (py_decode ASCII x))).
    intros a s. unfold Homebrew2015_fifth_letter, peek, read_str, bind, lift, io_pos, io_seek, ret, fail. cbv beta iota. match goal with |- context [read_bytes rt 1 ?z] => destruct (read_bytes rt 1 z) as [[x|e] s1] end; [|reflexivity]. destruct (py_decode ASCII x); reflexivity.
  - exists (fun _ => x <- Mmdvm2020_fifth_letter rt;; ret (VStr x)). split; [reflexivity|]. apply (peek_steady rt 4 1 (fun x => rmap VStr (py_decode ASCII x))).
    intros a s. unfold Mmdvm2020_fifth_letter, peek, read_str, bind, lift, io_pos, io_seek, ret, fail. cbv beta iota. match goal with |- context [read_bytes rt 1 ?z] => destruct (read_bytes rt 1 z) as [[x|e] s1] end; [|reflexivity]. destruct (py_decode ASCII x); reflexivity.
  - exists (fun _ => TelemetryProtocol_specific_service rt). split; [reflexivity|]. apply (peek_steady rt 0 2 (fun x => Ok (resolve_enum TelemetryProtocol_ServiceSpecificTypes (be_int x)))).
    intros a s. unfold TelemetryProtocol_specific_service, peek, venum, read_u2be, bind, lift, io_pos, io_seek, ret. cbv beta iota. match goal with |- context [read_bytes rt 2 ?z] => destruct (read_bytes rt 2 z) as [[x|e] s1] end; reflexivity.
  - use_pure.
  - use_pure.
  - use_pure.
  - use_pure.
  - use_pure.
  - use_pure.
  - use_pure.
  - use_pure.
  - use_pure.
  - use_pure.
  - eexists. split; [intros o; reflexivity|]. apply (peek_steady rt 0 1 (fun x => Ok (resolve_enum LocationProtocol_LpGeneralTypes (be_int x)))).
    intros a s. unfold peek, venum, read_u1, bind, lift, io_pos, io_seek, ret. cbv beta iota. match goal with |- context [read_bytes rt 1 ?z] => destruct (read_bytes rt 1 z) as [[x|e] s1] end; reflexivity.
  - use_pure.
  - use_pure.
  - use_pure.
  - use_pure.
  - use_pure.
  - exists (fun a => f <- stored "data_packet_format" a;; data_header_compute rt f). split; [reflexivity|apply body_steady].
Qed.

(** The properties that look at the file; the others use attributes only. *)
Definition file_properties : list (string * string) := [
  ("Homebrew2015", "fifth_letter"); ("Mmdvm2020", "fifth_letter"); ("TelemetryProtocol", "specific_service");
  ("RealTimeTransportProtocol", "len_padding_if_exists"); ("RealTimeTransportProtocol", "len_padding");
  ("LocationProtocol", "opcode"); ("DmrDataHeader", "data")].
Definition pure_property (e : string * string * (live -> res pyval * live)) : Prop :=
  exists c, (forall o, snd e o = memo (snd (fst e)) c o) /\ pure c.
Ltac use_pure2 := lazymatch goal with |- pure_property (_, _, ?g) => let g' := eval unfold g in g in
   lazymatch g' with
   | memo _ ?c => exists c; split; [intros o; reflexivity|pu]
   | fun o => memo _ ?c o => exists c; split; [intros o; reflexivity|pu] end end.
Lemma all_kinds rt : Forall (fun e => pure_property e \/ In (fst e) file_properties) (properties rt).
Proof. unfold properties. repeat (apply Forall_cons; [first [right; cbn [fst file_properties In]; tauto|left; use_pure2]|]). apply Forall_nil. Qed.

Lemma ask_in rt c x : (exists g, In (c, x, g) (properties rt) /\ forall o, ask rt c x o = g o) \/
  (forall o, ask rt c x o = (match lookup x (l_attrs o) with Some v => Ok v | None => Err (AttributeError x) end, o)).
Proof.
  unfold ask. destruct (find _ (properties rt)) as [[[c' x'] g]|] eqn:F; [|right; reflexivity]. left.
  apply find_some in F. destruct F as [F1 F2]. cbn [fst snd] in F2. apply andb_prop in F2. destruct F2 as [A B]. apply String.eqb_eq in A, B. subst. exists g. split; [exact F1|reflexivity].
Qed.
Definition stored_attribute (x : string) (o : live) : res pyval * live := (match lookup x (l_attrs o) with Some v => Ok v | None => Err (AttributeError x) end, o).
Lemma ask_cases rt c x : c <> "RealTimeTransportProtocol" ->
  (exists m, steady m /\ forall o, ask rt c x o = memo x m o) \/ (forall o, ask rt c x o = stored_attribute x o).
Proof.
  intros N. destruct (ask_in rt c x) as [[g [G1 G2]]|P]; [|right; exact P]. left.
  destruct (proj1 (Forall_forall _ _) (all_memo rt) _ G1) as [[m [M1 M2]]|E]; [|contradiction]. cbn [fst snd] in M1. exists m. split; [exact M2|]. intros o. rewrite G2. apply M1.
Qed.

Definition mk (a : attrs) (s : stream) : live := {| l_attrs := a; l_io := s |}.
Lemma memo_file x c a s s' : steady c -> s_buf s = s_buf s' -> fst (memo x c (mk a s)) = fst (memo x c (mk a s')).
Proof.
  intros H E. unfold memo. cbn [mk l_attrs l_io]. destruct (lookup _ a); [reflexivity|].
  pose proof (st_file c H a s s' E) as R. destruct (c a s) as [[v|e] s1], (c a s') as [[v'|e'] s2]; cbn [fst] in *; congruence.
Qed.
Lemma memo_attrs x c a s : exists e, l_attrs (snd (memo x c (mk a s))) = a ++ e /\ (e = [] \/ exists v, e = [("_m_" ++ x, v)%string] /\ fst (memo x c (mk a s)) = Ok v /\ lookup ("_m_" ++ x)%string a = None).
Proof.
  unfold memo. cbn [mk l_attrs l_io]. destruct (lookup _ a) eqn:L; [exists []; rewrite app_nil_r; auto|].
  destruct (c a s) as [[v|e] s1]; cbn [snd l_attrs]; [|exists []; rewrite app_nil_r; auto]. eexists. split; [reflexivity|]. right. exists v. auto.
Qed.
Lemma cache_name x : is_cache ("_m_" ++ x)%string = true.
Proof. unfold is_cache. cbn. destruct x; reflexivity. Qed.
Lemma m_inj x y : ("_m_" ++ x = "_m_" ++ y)%string -> x = y. Proof. cbn. intros E. now injection E. Qed.

(** An access gives what it would have given before another access, wherever the file's position was. *)
Lemma ask_after rt c x y a s s0 s1 : c <> "RealTimeTransportProtocol" -> is_cache x = false -> s_buf s = s_buf s1 -> s_buf s0 = s_buf s1 ->
  fst (ask rt c x (mk (l_attrs (snd (ask rt c y (mk a s)))) s0)) = fst (ask rt c x (mk a s1)).
Proof.
  intros N X B0 B1. assert (B : s_buf s0 = s_buf s) by congruence.
  destruct (ask_cases rt c y N) as [[d [D1 D2]]|P].
  2:{ rewrite (P (mk a s)). cbn [stored_attribute snd mk l_attrs]. destruct (ask_cases rt c x N) as [[m [M1 M2]]|Q]; [rewrite !M2; now apply memo_file|]. rewrite !Q. reflexivity. }
  rewrite (D2 (mk a s)). destruct (memo_attrs y d a s) as [e [E [->|[v [-> [V L]]]]]]; rewrite E.
  { rewrite app_nil_r. destruct (ask_cases rt c x N) as [[m [M1 M2]]|Q]; [rewrite !M2; now apply memo_file|]. rewrite !Q. reflexivity. }
  destruct (String.eqb_spec x y) as [->|Nxy].
  - rewrite !D2. rewrite (memo_file y d a s1 s D1) by congruence. rewrite V. unfold memo. cbn [mk l_attrs]. now rewrite lookup_last.
  - destruct (ask_cases rt c x N) as [[m [M1 M2]]|Q].
    + rewrite !M2. rewrite (memo_file x m a s1 s0 M1) by congruence. unfold memo. cbn [mk l_attrs l_io].
      rewrite lookup_other by (intros K; apply m_inj in K; contradiction). destruct (lookup ("_m_" ++ x)%string a); [reflexivity|].
      pose proof (st_cache m M1 a ("_m_" ++ y)%string v s0 (cache_name y)) as R. destruct (m (a ++ [("_m_" ++ y, v)%string]) s0) as [[u|e] t], (m a s0) as [[u'|e'] t']; cbn [fst] in *; congruence.
    + rewrite !Q. cbn [stored_attribute fst mk l_attrs]. rewrite lookup_other; [reflexivity|]. intros K. subst x. rewrite cache_name in X. discriminate.
Qed.
Lemma ask_file rt c x a s s' : c <> "RealTimeTransportProtocol" -> s_buf s = s_buf s' -> fst (ask rt c x (mk a s)) = fst (ask rt c x (mk a s')).
Proof. intros N E. destruct (ask_cases rt c x N) as [[m [M1 M2]]|P]; [rewrite !M2; now apply memo_file|]. rewrite !P. reflexivity. Qed.
(** A property that does not look at the file gives the same on any file. *)
Lemma ask_pure rt c x a s s' : ~ In (c, x) file_properties -> fst (ask rt c x (mk a s)) = fst (ask rt c x (mk a s')) /\ l_io (snd (ask rt c x (mk a s))) = s.
Proof.
  intros N. destruct (ask_in rt c x) as [[g [G1 G2]]|P]; [|rewrite !P; split; reflexivity].
  destruct (proj1 (Forall_forall _ _) (all_kinds rt) _ G1) as [[m [M1 [r [R1 R2]]]]|E]; [|contradiction]. cbn [fst snd] in M1. rewrite !G2, !M1.
  unfold memo. cbn [mk l_attrs l_io]. destruct (lookup _ a); [split; reflexivity|]. rewrite !R1. destruct (r a); split; reflexivity.
Qed.

(** The bodies of the data header never fail on twelve octets. *)
Lemma body_total rt f raw : blen raw = 12 -> exists v, from_bytes (data_header_body rt f) raw = Ok v.
Proof.
  intros L.
  assert (S : forall z, exists v, from_bytes (data_header_body rt (resolve_enum DmrDataHeader_DataPacketFormats z)) raw = Ok v).
  { intros z. rewrite data_header_body_ok by exact raw. unfold data_header_bodies, select.
    repeat match goal with |- context [if ?z =? ?c then _ else _] => destruct (z =? c) end; [..|eauto].
    all: unfold object; match goal with |- context [fields ?x 0 ?fs] =>
           destruct (plain_ok x 0 96 fs eq_refl ltac:(lia)) as [a ->] end; eexists; reflexivity. }
  unfold data_header_body.
  repeat match goal with |- context [if eq_member ?E ?n f then _ else _] => destruct (eq_member E n f) end.
  - exact (S 15).
  - exact (S 13).
  - exact (S 2).
  - exact (S 3).
  - exact (S 0).
  - exact (S 14).
  - exact (S 1).
  - exact (S 4).
Qed.
Local Transparent slice.
Lemma read_at_0 rt n s : 0 <= n <= blen (s_buf s) -> fst (read_bytes rt n (snd (io_seek rt 0 s))) = Ok (slice (s_buf s) 0 n).
Proof.
  intros H. unfold read_bytes, raw_read_bytes, io_seek, io_read, slice. destruct (Z.ltb_spec n 0); [lia|].
  assert (X : forall t, s_buf t = s_buf s -> s_pos t = 0%nat -> fst (let '(got, s') := (if blen (skipn (s_pos t) (s_buf t)) <=? n then skipn (s_pos t) (s_buf t) else firstn (Z.to_nat n) (skipn (s_pos t) (s_buf t)), set_pos t (s_pos t + List.length (if blen (skipn (s_pos t) (s_buf t)) <=? n then skipn (s_pos t) (s_buf t) else firstn (Z.to_nat n) (skipn (s_pos t) (s_buf t))))) in if blen got <? n then (Err EOFError, s') else (Ok got, s')) = Ok (firstn (Z.to_nat n) (skipn (Z.to_nat 0) (s_buf s)))).
  { intros t -> ->. change (Z.to_nat 0) with 0%nat. cbn [skipn]. unfold blen in *. destruct (Z.leb_spec (Z.of_nat (List.length (s_buf s))) n).
    - destruct (Z.ltb_spec (Z.of_nat (List.length (s_buf s))) n); [lia|]. cbn [fst]. f_equal. rewrite firstn_all2 by lia. reflexivity.
    - rewrite firstn_length. destruct (Z.ltb_spec (Z.of_nat (Nat.min (Z.to_nat n) (List.length (s_buf s)))) n); [lia|]. reflexivity. }
  destruct rt; cbv zeta; apply X; reflexivity.
Qed.
Lemma peek_at_0 rt n f s : 0 <= n <= blen (s_buf s) -> fst (peek rt 0 n f s) = f (slice (s_buf s) 0 n).
Proof.
  intros H. pose proof (read_at_0 rt n s H) as R. unfold peek, bind, io_pos. change (io_seek rt 0 s) with (@Ok unit tt, snd (io_seek rt 0 s)). cbv beta iota.
  destruct (read_bytes rt n (snd (io_seek rt 0 s))) as [[x|e] s1]; cbn [fst] in R; [|discriminate]. assert (x = slice (s_buf s) 0 n) as -> by congruence.
  unfold lift. destruct (f (slice (s_buf s) 0 n)); reflexivity.
Qed.

(** The two file-reading properties that classes in a session have do not fail on a file of twelve octets or more. *)
Lemma data_quiet rt a s : 12 <= blen (s_buf s) -> s_pos (l_io (snd (DmrDataHeader_data rt (mk a s)))) = s_pos s.
Proof.
  intros H. unfold DmrDataHeader_data, memo. cbn [mk l_attrs l_io]. destruct (lookup _ a); [reflexivity|].
  unfold bind at 1, stored, ret, fail. destruct (lookup "data_packet_format" a) as [f|]; [|reflexivity].
  change (data_header_compute rt f s) with (peek rt 0 12 (fun raw => from_bytes (data_header_body rt f) raw) s).
  pose proof (peek_at_0 rt 12 (fun raw => from_bytes (data_header_body rt f) raw) s ltac:(lia)) as P. cbv beta in P.
  destruct (body_total rt f (slice (s_buf s) 0 12)) as [v V]; [apply slice_length; lia|]. rewrite V in P.
  destruct (peek rt 0 12 (fun raw => from_bytes (data_header_body rt f) raw) s) as [[u|e] s'] eqn:E; cbn [fst] in P; [|discriminate].
  apply peek_pos in E. exact (proj1 E).
Qed.
Lemma opcode_quiet rt a s : 1 <= blen (s_buf s) -> s_pos (l_io (snd (LocationProtocol_opcode rt (mk a s)))) = s_pos s.
Proof.
  intros H. unfold LocationProtocol_opcode, memo. cbn [mk l_attrs l_io]. destruct (lookup _ a); [reflexivity|].
  set (m := bind io_pos _). assert (E : m s = peek rt 0 1 (fun x => Ok (resolve_enum LocationProtocol_LpGeneralTypes (be_int x))) s).
  { unfold m, peek, venum, read_u1, bind, lift, io_pos, io_seek, ret. cbv beta iota. match goal with |- context [read_bytes rt 1 ?z] => destruct (read_bytes rt 1 z) as [[x|e] s1] end; reflexivity. }
  rewrite E. clear E m. pose proof (peek_at_0 rt 1 (fun x => Ok (resolve_enum LocationProtocol_LpGeneralTypes (be_int x))) s ltac:(lia)) as P. cbv beta in P.
  destruct (peek rt 0 1 _ s) as [[u|e] s'] eqn:E; cbn [fst] in P; [|discriminate]. apply peek_pos in E. exact (proj1 E).
Qed.

(** RTP's two properties. *)
Lemma rtp_peek rt s n s' : RealTimeTransportProtocol_len_padding_if_exists rt s = (Ok n, s') -> s_pos s' = s_pos s /\ s_buf s' = s_buf s.
Proof.
  unfold RealTimeTransportProtocol_len_padding_if_exists, bind, io_pos, io_size. cbv beta iota. change (io_seek rt (blen (s_buf s) - 1) s) with (@Ok unit tt, snd (io_seek rt (blen (s_buf s) - 1) s)). cbv beta iota.
  unfold read_u1, bind. pose proof (read_buf rt 1 (snd (io_seek rt (blen (s_buf s) - 1) s))) as R.
  destruct (read_bytes rt 1 (snd (io_seek rt (blen (s_buf s) - 1) s))) as [[x|e] s1]; [|discriminate]. cbn [snd] in R. unfold io_seek, ret. intros E. injection E as _ <-.
  split; [destruct rt; cbn [set_pos s_pos]; lia|]. destruct rt; cbn [set_pos s_buf auto_align align_state] in *; exact R.
Qed.
Lemma rtp_if_exists rt o v o' : RealTimeTransportProtocol_len_padding_if_exists_property rt o = (Ok v, o') -> s_pos (l_io o') = s_pos (l_io o) /\ s_buf (l_io o') = s_buf (l_io o).
Proof.
  unfold RealTimeTransportProtocol_len_padding_if_exists_property. destruct (lookup _ (l_attrs o)); [intros E; injection E as _ <-; auto|].
  unfold bind, stored, attribute, truth, ret, fail. destruct (lookup "fixed_header" (l_attrs o)) as [h|]; [|discriminate].
  destruct (getattr "padding" h) as [p|]; [|discriminate]. destruct p; try discriminate. destruct b; [|intros E; injection E as _ <-; auto].
  destruct (RealTimeTransportProtocol_len_padding_if_exists rt (l_io o)) as [[n|e] s1] eqn:R; [|discriminate]. intros E. injection E as _ <-. cbn [l_io]. eapply rtp_peek, R.
Qed.
Lemma rtp_padding rt o v o' : RealTimeTransportProtocol_len_padding_property rt o = (Ok v, o') -> s_pos (l_io o') = s_pos (l_io o) /\ s_buf (l_io o') = s_buf (l_io o).
Proof.
  unfold RealTimeTransportProtocol_len_padding_property. destruct (lookup _ (l_attrs o)); [intros E; injection E as _ <-; auto|].
  unfold bind, stored, attribute, truth, ret, fail. destruct (lookup "fixed_header" (l_attrs o)) as [h|]; [|discriminate].
  destruct (getattr "padding" h) as [p|]; [|discriminate]. destruct p; try discriminate. destruct b; [|intros E; injection E as _ <-; auto].
  destruct (RealTimeTransportProtocol_len_padding_if_exists_property rt _) as [[n|e] o1] eqn:R; [|discriminate]. intros E. injection E as _ <-. cbn [l_io]. apply rtp_if_exists in R. exact R.
Qed.
