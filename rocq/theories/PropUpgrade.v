(** Property C67 (see properties.jsonl): the answers of an object's properties are the same under both stream runtimes. *)
From Coq Require Import Lia.
From Verif Require Import PyBase Runtime Codec Spec RuntimeProofs Enums Getters GetterProofs EtsiModel EtsiSpec EtsiProofs HomebrewModel HyteraModel MotorolaModel LazyModel AllParsers PropGeneral2 StableProofs Ksy KsyDefs KsySchema KsyTyped KsySize SizeProofs SizeMain PropKsy PropSchema PropSize PropErrors SessionModel SessionProofs.
Open Scope string_scope.
Open Scope list_scope.
Open Scope Z_scope.

(** What a program sees of the accesses of one object: the name and the outcome of each. *)
Definition outcomes (rt : runtime) (c : string) (ops : list access) (o : live) : list (string * res pyval) :=
  map (fun ob => (ob_name ob, ob_result ob)) (history rt (ask rt c) ops o).

(** * Proofs *)
Section Two.
Context (rt rt' : runtime).
Lemma seek_read_twice n k s s' : s_buf s = s_buf s' ->
  fst (read_bytes rt n (snd (io_seek rt k s))) = fst (read_bytes rt' n (snd (io_seek rt' k s'))).
Proof.
  intros E. unfold read_bytes, raw_read_bytes, io_seek. cbn [snd]. destruct (n <? 0); [reflexivity|].
  unfold io_read. destruct rt, rt'; cbn [auto_align align_state set_pos s_pos s_buf]; rewrite E; cbv zeta; destruct (blen _ <? n); reflexivity.
Qed.
Definition twins (m m' : M pyval) : Prop := forall s s', s_buf s = s_buf s' -> fst (m s) = fst (m' s') /\ s_buf (snd (m s)) = s_buf (snd (m' s')).
Definition twin (g g' : live -> res pyval * live) : Prop := forall a s s', s_buf s = s_buf s' ->
  fst (g (mk a s)) = fst (g' (mk a s')) /\ l_attrs (snd (g (mk a s))) = l_attrs (snd (g' (mk a s'))) /\ s_buf (l_io (snd (g (mk a s)))) = s_buf (l_io (snd (g' (mk a s')))).
Lemma memo_twin x c c' : (forall a, twins (c a) (c' a)) -> twin (memo x c) (memo x c').
Proof.
  intros H a s s' E. unfold memo. cbn [mk l_attrs l_io]. destruct (lookup _ a); [auto|]. destruct (H a s s' E) as [H1 H2].
  destruct (c a s) as [[v|e] s1], (c' a s') as [[w|e'] s2]; cbn [fst snd] in *; try discriminate; cbn [l_attrs l_io]; [assert (v = w) as -> by congruence|assert (e = e') as -> by congruence]; auto.
Qed.
Lemma pure_twin x c : pure c -> twin (memo x c) (memo x c).
Proof. intros [r [R _]]. apply memo_twin. intros a s s' E. rewrite !R. auto. Qed.
Lemma seek_buf r k s : s_buf (snd (io_seek r k s)) = s_buf s. Proof. destruct r; reflexivity. Qed.
Lemma peek_buf r k n f s : s_buf (snd (peek r k n f s)) = s_buf s.
Proof.
  unfold peek, bind, io_pos. change (io_seek r k s) with (@Ok unit tt, snd (io_seek r k s)). cbv beta iota.
  pose proof (read_buf r n (snd (io_seek r k s))) as R. rewrite seek_buf in R. destruct (read_bytes r n (snd (io_seek r k s))) as [[x|e] s1]; cbn [snd] in *; [|exact R].
  unfold lift. destruct (f x); cbn [snd]; [|exact R]. change (io_seek r ?q s1) with (@Ok unit tt, snd (io_seek r q s1)). cbv beta iota. unfold ret. cbn [snd]. rewrite seek_buf. exact R.
Qed.
Lemma peek_twins k n f f' : (forall x, f x = f' x) -> twins (peek rt k n f) (peek rt' k n f').
Proof.
  intros F s s' E. split; [|rewrite !peek_buf; exact E].
  unfold peek, bind, io_pos. change (io_seek rt k s) with (@Ok unit tt, snd (io_seek rt k s)). change (io_seek rt' k s') with (@Ok unit tt, snd (io_seek rt' k s')). cbv beta iota.
  pose proof (seek_read_twice n k s s' E) as R. destruct (read_bytes rt n (snd (io_seek rt k s))) as [[x|e] s1], (read_bytes rt' n (snd (io_seek rt' k s'))) as [[y|e'] s2]; cbn [fst] in R; try discriminate; [|cbn [fst]; congruence].
  assert (x = y) as -> by congruence. unfold lift. rewrite F. destruct (f' y); reflexivity.
Qed.
Lemma through m m' p p' : (forall s, m s = p s) -> (forall s, m' s = p' s) -> twins p p' -> twins m m'.
Proof. intros A B T s s' E. rewrite A, B. now apply T. Qed.
Lemma body_same f raw : from_bytes (data_header_body rt f) raw = from_bytes (data_header_body rt' f) raw.
Proof.
  assert (S : forall z, from_bytes (data_header_body rt (resolve_enum DmrDataHeader_DataPacketFormats z)) raw = from_bytes (data_header_body rt' (resolve_enum DmrDataHeader_DataPacketFormats z)) raw).
  { intros z. rewrite !data_header_body_ok by exact raw. reflexivity. }
  unfold data_header_body.
  repeat match goal with |- context [if eq_member ?E ?n f then _ else _] => destruct (eq_member E n f) end.
  - exact (S 15).
  - exact (S 13).
  - exact (S 2).
  - exact (S 3).
  - exact (S 0).
  - exact (S 14).
  - exact (S 1).
  - exact (S 4).
Qed.
Lemma padding_twins s s' : s_buf s = s_buf s' -> fst (RealTimeTransportProtocol_len_padding_if_exists rt s) = fst (RealTimeTransportProtocol_len_padding_if_exists rt' s') /\
  s_buf (snd (RealTimeTransportProtocol_len_padding_if_exists rt s)) = s_buf (snd (RealTimeTransportProtocol_len_padding_if_exists rt' s')).
Proof.
  intros E. assert (P : forall r t, (v <- RealTimeTransportProtocol_len_padding_if_exists r;; ret (VInt v)) t = peek r (blen (s_buf t) - 1) 1 (fun x => Ok (VInt (be_int x))) t).
  { intros r t. unfold RealTimeTransportProtocol_len_padding_if_exists, peek, read_u1, bind, lift, io_pos, io_size, io_seek, ret. cbv beta iota. match goal with |- context [read_bytes r 1 ?z] => destruct (read_bytes r 1 z) as [[x|e] s1] end; reflexivity. }
  pose proof (P rt s) as P1. pose proof (P rt' s') as P2. destruct (peek_twins (blen (s_buf s) - 1) 1 (fun x => Ok (VInt (be_int x))) _ (fun x => eq_refl) s s' E) as [T1 T2]. rewrite <- P1 in T1, T2. rewrite E, <- P2 in T1, T2.
  unfold bind, ret in T1, T2. destruct (RealTimeTransportProtocol_len_padding_if_exists rt s) as [[v|e] t], (RealTimeTransportProtocol_len_padding_if_exists rt' s') as [[v'|e'] t']; cbn [fst snd] in *; try discriminate; split; congruence.
Qed.
Lemma if_exists_twin : twin (RealTimeTransportProtocol_len_padding_if_exists_property rt) (RealTimeTransportProtocol_len_padding_if_exists_property rt').
Proof.
  intros a s s' E. unfold RealTimeTransportProtocol_len_padding_if_exists_property. cbn [mk l_attrs l_io]. destruct (lookup "_m_len_padding_if_exists" a); [auto|].
  unfold bind, stored, attribute, truth, ret, fail. destruct (lookup "fixed_header" a) as [h|]; [|auto]. destruct (getattr "padding" h) as [p|]; [|auto]. destruct p; auto. destruct b; [|auto].
  destruct (padding_twins s s' E) as [P1 P2]. destruct (RealTimeTransportProtocol_len_padding_if_exists rt s) as [[v|e] t], (RealTimeTransportProtocol_len_padding_if_exists rt' s') as [[v'|e'] t']; cbn [fst snd] in *; try discriminate; cbn [l_attrs l_io]; [assert (v = v') as -> by congruence|assert (e = e') as -> by congruence]; auto.
Qed.
Lemma padding_twin : twin (RealTimeTransportProtocol_len_padding_property rt) (RealTimeTransportProtocol_len_padding_property rt').
Proof.
  intros a s s' E. unfold RealTimeTransportProtocol_len_padding_property. cbn [mk l_attrs l_io]. destruct (lookup "_m_len_padding" a); [auto|].
  unfold bind, stored, attribute, truth, ret, fail. destruct (lookup "fixed_header" a) as [h|]; [|auto]. destruct (getattr "padding" h) as [p|]; [|auto]. destruct p; auto. destruct b; [|auto].
  destruct (if_exists_twin a s s' E) as [P1 [P2 P3]]. unfold mk in *. destruct (RealTimeTransportProtocol_len_padding_if_exists_property rt _) as [[v|e] t], (RealTimeTransportProtocol_len_padding_if_exists_property rt' _) as [[v'|e'] t']; cbn [fst snd] in *; try discriminate; cbn [l_attrs l_io].
  - assert (v = v') as -> by congruence. rewrite P2. auto.
  - assert (e = e') as -> by congruence. auto.
Qed.
Ltac peeks k n f r := apply (through _ _ (peek rt k n f) (peek rt' k n f)); [| |apply peek_twins; reflexivity]; intros s;
  unfold Homebrew2015_fifth_letter, Mmdvm2020_fifth_letter, TelemetryProtocol_specific_service, peek, venum, read_str, read_u1, read_u2be, bind, lift, io_pos, io_seek, ret, fail; cbv beta iota;
  match goal with |- context [read_bytes _ n ?z] => destruct (read_bytes _ n z) as [[x|e] s1] end; try reflexivity; try (match goal with |- context [py_decode ASCII ?y] => destruct (py_decode ASCII y); reflexivity end).
Ltac pures := lazymatch goal with |- twin ?g ?g => let g' := eval unfold g in g in
  lazymatch g' with memo ?x ?c => change (twin (memo x c) (memo x c)); apply pure_twin; pu | fun o => memo ?x ?c o => change (twin (memo x c) (memo x c)); apply pure_twin; pu end end.
Lemma properties_twin : Forall2 (fun e e' => fst e = fst e' /\ twin (snd e) (snd e')) (properties rt) (properties rt').
Proof.
  unfold properties. repeat (apply Forall2_cons; [split; [reflexivity|cbn [snd]]|]); [..|apply Forall2_nil].
  - apply memo_twin. intros _. peeks 4 1 (fun x => rmap VStr (py_decode ASCII x)) rt.
  - apply memo_twin. intros _. peeks 4 1 (fun x => rmap VStr (py_decode ASCII x)) rt.
  - apply memo_twin. intros _. peeks 0 2 (fun x => Ok (resolve_enum TelemetryProtocol_ServiceSpecificTypes (be_int x))) rt.
  - pures.
  - apply if_exists_twin.
  - apply padding_twin.
  - pures.
  - pures.
  - pures.
  - pures.
  - pures.
  - pures.
  - pures.
  - pures.
  - pures.
  - apply memo_twin. intros _. peeks 0 1 (fun x => Ok (resolve_enum LocationProtocol_LpGeneralTypes (be_int x))) rt.
  - pures.
  - pures.
  - pures.
  - pures.
  - pures.
  - apply memo_twin. intros a s s' E. change (fst ((f <- stored "data_packet_format" a;; peek rt 0 12 (fun raw => from_bytes (data_header_body rt f) raw)) s) = fst ((f <- stored "data_packet_format" a;; peek rt' 0 12 (fun raw => from_bytes (data_header_body rt' f) raw)) s') /\
      s_buf (snd ((f <- stored "data_packet_format" a;; peek rt 0 12 (fun raw => from_bytes (data_header_body rt f) raw)) s)) = s_buf (snd ((f <- stored "data_packet_format" a;; peek rt' 0 12 (fun raw => from_bytes (data_header_body rt' f) raw)) s'))).
    unfold stored. destruct (lookup "data_packet_format" a) as [f|]; [|auto].
    exact (peek_twins 0 12 (fun raw => from_bytes (data_header_body rt f) raw) (fun raw => from_bytes (data_header_body rt' f) raw) (body_same f) s s' E).
Qed.
Lemma ask_twin c x : twin (ask rt c x) (ask rt' c x).
Proof.
  assert (K : forall l l', Forall2 (fun e e' : string * string * (live -> res pyval * live) => fst e = fst e' /\ twin (snd e) (snd e')) l l' ->
    match find (fun e => String.eqb (fst (fst e)) c && String.eqb (snd (fst e)) x) l, find (fun e => String.eqb (fst (fst e)) c && String.eqb (snd (fst e)) x) l' with Some e, Some e' => twin (snd e) (snd e') | None, None => True | _, _ => False end).
  { induction 1 as [|e e' l l' [F T] _ IH]; [exact I|]. cbn [find]. rewrite <- F. destruct (_ && _); [exact T|exact IH]. }
  specialize (K _ _ properties_twin). intros a s s' E. unfold ask. destruct (find _ (properties rt)) as [e|], (find _ (properties rt')) as [e'|]; try contradiction; [now apply K|]. cbn [mk l_attrs l_io fst snd]. auto.
Qed.
Lemma history_twin c ops : forall a s s', s_buf s = s_buf s' -> outcomes rt c ops (mk a s) = outcomes rt' c ops (mk a s').
Proof.
  unfold outcomes. induction ops as [|[x|n] ops IH]; intros a s s' E; [reflexivity| |].
  - cbn [history]. destruct (ask_twin c x a s s' E) as [A [B C]]. destruct (ask rt c x (mk a s)) as [r o], (ask rt' c x (mk a s')) as [r' o']. cbn [fst snd] in *. subst r'. cbn [map ob_name ob_result]. f_equal.
    destruct o as [a1 s1], o' as [a2 s2]. cbn [l_attrs l_io] in *. subst a2. apply IH. exact C.
  - cbn [history mk l_attrs l_io]. apply IH. rewrite !seek_buf. exact E.
Qed.
End Two.

Lemma open_keeps_stream name p : In (name, p) all_parsers -> forall rt b o, open_object (p rt) b = Ok o -> s_buf (l_io o) = b.
Proof.
  intros Hp rt b o H. destruct (C54_from_bytes name p Hp) as [T [HT _]]. apply In_nth_error in HT as [i HT]. pose proof HT as HT'. assert (P : nth_error all_parsers i = Some (name, p)).
  { pose proof (map_nth_error fst _ _ HT) as A. rewrite C54_every_parser_has_its_definition in A. cbn [fst] in A. destruct (nth_error all_parsers i) as [[n q]|] eqn:E.
    - pose proof (map_nth_error fst _ _ E) as A'. cbn [fst] in A'. assert (n = name) as -> by congruence. apply nth_error_In in E. now rewrite (nodup_unique _ nodup_parsers _ _ _ E Hp).
    - apply nth_error_None in E. rewrite nth_error_map in A. now rewrite (proj2 (nth_error_None _ _) E) in A. }
  pose proof (C54_parsers_implement_their_definitions i name T p HT P rt (stream_of b)) as E.
  assert (TO : typ_ok T = true).
  { apply nth_error_In in HT'. pose proof (in_map fst _ _ Hp) as B. rewrite C64_every_class in B. apply in_map_iff in B as [[[n a] c] [N B]]. cbn [fst] in N. subst n.
    destruct (bounds_are_right _ _ _ B) as [T2 [H2 [H3 _]]]. now rewrite (nodup_unique _ nodup_names _ _ _ HT' H2). }
  destruct (all_sizes rt) as [_ [_ [_ [_ [_ [_ [_ A]]]]]]]. destruct (A T TO) as [_ B]. destruct (good_init b) as [G _]. assert (C0 : caches_small []) by (intros ? []). specialize (B [] (stream_of b) G C0).
  unfold open_object in H. rewrite <- E in H. unfold ksy_read, bind in H. destruct (run_typ rt T [] (stream_of b)) as [[[w f]|e] s1]; cbn [ret fst] in H; [|discriminate H]. destruct B as [_ [B _]].
  destruct w; try discriminate H. injection H as <-. cbn [l_io]. exact B.
Qed.

(** * The theorems *)
(** An object read from a packet under one runtime and one read from the same packet under the other: equal attributes
    (caches of [_read] included), and whatever is asked of them, in whatever order and with whatever seeks in between, the
    same outcomes - values and exceptions.  And there is an object under one exactly if there is one under the other. *)
Theorem C67_same_answers : forall (c : string) (p : runtime -> M pyval), In (c, p) all_parsers ->
  forall (b : bytes) (o o' : live), open_object (p V010) b = Ok o -> open_object (p V011) b = Ok o' ->
  l_attrs o = l_attrs o' /\ forall ops : list access, outcomes V010 c ops o = outcomes V011 c ops o'.
Proof.
  intros c p H b o o' O O'. destruct (open_from _ _ _ O) as [k E]. destruct (open_from _ _ _ O') as [k' E'].
  rewrite (C02_same_result_under_both_runtimes c p H b), E' in E. assert (A : l_attrs o' = l_attrs o) by congruence. split; [now symmetry|]. intros ops.
  assert (B : s_buf (l_io o) = b /\ s_buf (l_io o') = b) by (split; [exact (open_keeps_stream _ _ H _ _ _ O)|exact (open_keeps_stream _ _ H _ _ _ O')]).
  destruct o as [a s], o' as [a' s']. cbn [l_attrs l_io] in *. subst a'. apply history_twin. destruct B. congruence.
Qed.
(** The same for any object of any class, nested ones and later states included: what counts is the attributes, the caches
    and the bytes of the stream - not the position, nor bits left over in the stream. *)
Theorem C67_any_state : forall (c : string) (o o' : live), l_attrs o = l_attrs o' -> s_buf (l_io o) = s_buf (l_io o') ->
  forall (rt rt' : runtime) (ops : list access), outcomes rt c ops o = outcomes rt' c ops o'.
Proof. intros c [a s] [a' s'] A S rt rt' ops. cbn [l_attrs l_io] in *. subst a'. exact (history_twin rt rt' c ops a s s' S). Qed.
(** The constructor itself: an object under one version exactly if under the other (the same one,
    or the same exception: C02). *)
Theorem C67_accepted_by_both : forall (c : string) (p : runtime -> M pyval), In (c, p) all_parsers -> forall b : bytes,
  (exists o, open_object (p V010) b = Ok o) <-> (exists o, open_object (p V011) b = Ok o).
Proof.
  intros c p H b. pose proof (C02_same_result_under_both_runtimes c p H b) as E. unfold open_object, from_bytes in *.
  destruct (p V010 (stream_of b)) as [r s], (p V011 (stream_of b)) as [r' s']. cbn [fst] in E. subst r'. destruct r as [[]|]; split; intros [o O]; try discriminate; eexists; reflexivity.
Qed.

(** * Examples *)
(** A data header of one octet too few: [data] fails; a whole one: [data] is a body, after a seek too. *)
Example C67_short : exists o o', open_object (p_DmrDataHeader) (B [2; 0]) = Ok o /\ open_object p_DmrDataHeader (B [2; 0]) = Ok o' /\
  outcomes V010 "DmrDataHeader" [Get "data"; Seek 1; Get "data"] o = [("data", Err EOFError); ("data", Err EOFError)] /\
  outcomes V011 "DmrDataHeader" [Get "data"; Seek 1; Get "data"] o' = [("data", Err EOFError); ("data", Err EOFError)].
Proof. do 2 eexists. split; [vm_compute; reflexivity|]. split; [vm_compute; reflexivity|]. split; vm_compute; reflexivity. Qed.
Example C67_fifth : exists o o' p v, In ("Homebrew2015", p) all_parsers /\ let b := B [0x4D; 0x53; 0x54; 0x50; 0x49; 0x4E; 0x47; 0; 0; 0; 1] in
  open_object (p V010) b = Ok o /\ open_object (p V011) b = Ok o' /\
  outcomes V010 "Homebrew2015" [Seek 7; Get "fifth_letter"; Get "fifth_letter"] o = v /\ outcomes V011 "Homebrew2015" [Seek 7; Get "fifth_letter"; Get "fifth_letter"] o' = v /\
  nth_error v 0 = Some ("fifth_letter", Ok (VStr [0x49])).
Proof.
  do 4 eexists. split; [apply (nth_error_In all_parsers 51); reflexivity|]. cbv zeta. split; [vm_compute; reflexivity|]. split; [vm_compute; reflexivity|]. split; [vm_compute; reflexivity|]. split; vm_compute; reflexivity.
Qed.

Definition C67_all := (C67_same_answers, C67_any_state, C67_accepted_by_both).
Print Assumptions C67_all.
