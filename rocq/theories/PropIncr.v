(** Property C56 (see properties.jsonl): EOFError means that the packet is not complete, and nothing else does. *)
From Verif Require Import PyBase Runtime Codec Enums Getters EtsiModel HomebrewModel HyteraModel MotorolaModel AllParsers StableProofs IncrProofs.
Open Scope string_scope.
Open Scope list_scope.
Open Scope Z_scope.

Ltac index x l := lazymatch l with x :: _ => constr:(O) | _ :: ?r => let n := index x r in constr:(S n) end.
Ltac in_list := lazymatch goal with |- In ?x ?l => let l' := eval unfold self_delimiting in l in let n := index x l' in apply (nth_error_In l n); reflexivity end.
Lemma exn_eof_dec (e : exn) : {e = EOFError} + {e <> EOFError}.
Proof. destruct e; (now left) || (right; discriminate). Qed.
Lemma incremental_of name p : In (name, p) self_delimiting -> forall rt, incremental (p rt).
Proof. intros H rt. exact (proj1 (Forall_forall _ _) self_delimiting_incremental _ H rt). Qed.

(** [self_delimiting] (StableProofs.v) lists 126 of the 156 classes, among them the messages named in C06_includes.
    [l_io o] is the stream [obj._io] after parsing; its position is the number of bytes the message consists of. *)
Theorem C56_truncated_packets : forall (name : string) (p : runtime -> M pyval), In (name, p) self_delimiting ->
  forall (rt : runtime) (b : bytes) (o : live), open_object (p rt) b = Ok o ->
  let n := s_pos (l_io o) in
  (n <= List.length b)%nat /\
  (forall k, (k < n)%nat -> from_bytes (p rt) (firstn k b) = Err EOFError) /\
  (forall k, (n <= k)%nat -> from_bytes (p rt) (firstn k b) = from_bytes (p rt) b).
Proof.
  intros name p H rt b o E n. pose proof (incremental_of _ _ H rt (stream_of b)) as I. cbn [stream_of s_pos s_buf] in I. specialize (I ltac:(lia)).
  unfold open_object in E. unfold from_bytes. destruct (p rt (stream_of b)) as [[v|e] s'] eqn:Em; [|discriminate].
  destruct v; try discriminate. assert (Hn : n = s_pos s') by (unfold n; injection E as <-; reflexivity). rewrite Hn.
  destruct I as [_ [P [_ [K F]]]]. split; [lia|]. split.
  - intros k Hk. exact (F k (conj (Nat.le_0_l k) Hk)).
  - intros k Hk. change (stream_of (firstn k b)) with (cut (stream_of b) k). rewrite (K k Hk). reflexivity.
Qed.

(** Any other exception is final: no continuation of the packet parses. *)
Theorem C56_other_exceptions_are_final : forall (name : string) (p : runtime -> M pyval), In (name, p) self_delimiting ->
  forall (rt : runtime) (b t : bytes) (e : exn), from_bytes (p rt) b = Err e -> e <> EOFError -> from_bytes (p rt) (b ++ t) = Err e.
Proof.
  intros name p H rt b t e E He. pose proof (incremental_of _ _ H rt (stream_of b)) as I. cbn [stream_of s_pos s_buf] in I. specialize (I ltac:(lia)).
  unfold from_bytes in *. destruct (p rt (stream_of b)) as [r s'] eqn:Em. cbn [fst] in E. subst r. exact (I He t).
Qed.

(** So a receiver that appends bytes until there is no EOFError gets the message, after exactly the bytes it
    consists of, however the bytes arrive. *)
Fixpoint receive (parse : bytes -> res pyval) (got : bytes) (chunks : list bytes) : res pyval :=
  match parse got, chunks with
  | Err EOFError, c :: chunks' => receive parse (got ++ c) chunks'
  | r, _ => r
  end.
Theorem C56_reception_in_pieces : forall (name : string) (p : runtime -> M pyval), In (name, p) self_delimiting ->
  forall (rt : runtime) (got : bytes) (chunks : list bytes),
  receive (from_bytes (p rt)) got chunks = from_bytes (p rt) (got ++ List.concat chunks).
Proof.
  intros name p H rt got chunks. revert got. induction chunks as [|c cs IH]; intros got; cbn [receive List.concat].
  - rewrite app_nil_r. now destruct (from_bytes (p rt) got) as [v|[]].
  - pose proof (incremental_of _ _ H rt (stream_of got)) as I. cbn [stream_of s_pos s_buf] in I. specialize (I ltac:(lia)).
    assert (Q : from_bytes (p rt) got = Err EOFError \/ from_bytes (p rt) (got ++ c ++ List.concat cs) = from_bytes (p rt) got).
    { unfold from_bytes. destruct (p rt (stream_of got)) as [[v|e] s'] eqn:Em.
      - right. destruct I as [_ [_ [X _]]]. change (stream_of (got ++ c ++ List.concat cs)) with (extend (stream_of got) (c ++ List.concat cs)). rewrite X. reflexivity.
      - cbn [fst]. destruct (exn_eof_dec e) as [->|He]; [now left|right].
        change (stream_of (got ++ c ++ List.concat cs)) with (extend (stream_of got) (c ++ List.concat cs)). now apply I. }
    destruct (from_bytes (p rt) got) as [v|e] eqn:Eg; [destruct Q as [Q|Q]; [discriminate|now rewrite Q]|].
    destruct e; try (destruct Q as [Q|Q]; [discriminate|now rewrite Q]). rewrite IH, <- app_assoc. reflexivity.
Qed.

(** No message is a proper beginning of another one. *)
Theorem C56_prefix_free : forall (name : string) (p : runtime -> M pyval), In (name, p) self_delimiting ->
  forall (rt : runtime) (b1 t : bytes) (o1 o2 : live), open_object (p rt) b1 = Ok o1 -> open_object (p rt) (b1 ++ t) = Ok o2 ->
  l_attrs o2 = l_attrs o1 /\ s_pos (l_io o2) = s_pos (l_io o1).
Proof.
  intros name p H rt b t o1 o2 E1 E2. pose proof (incremental_of _ _ H rt (stream_of b)) as I. cbn [stream_of s_pos s_buf] in I. specialize (I ltac:(lia)).
  unfold open_object in *. destruct (p rt (stream_of b)) as [[v|e] s'] eqn:Em; [|discriminate].
  destruct I as [_ [_ [X _]]]. specialize (X t). change (extend (stream_of b) t) with (stream_of (b ++ t)) in X. rewrite X in E2.
  destruct v; try discriminate. injection E1 as <-. injection E2 as <-. split; reflexivity.
Qed.

(** The radio registration message of the test suite (okdmr/tests/kaitai/hytera/test_hdap.py), followed by two
    other bytes: 11 bytes are the message; 10 give EOFError; a wrong footer stays wrong. *)
Definition registration := B [0x11; 0; 3; 0; 4; 0x0a; 0x23; 0x38; 0x63; 0x63; 3].
Example C56_case : forall rt, In ("HyteraDmrApplicationProtocol", p_HyteraDmrApplicationProtocol) self_delimiting /\
  (exists o, open_object (p_HyteraDmrApplicationProtocol rt) (registration ++ B [7; 7]) = Ok o /\ s_pos (l_io o) = 11%nat) /\
  from_bytes (p_HyteraDmrApplicationProtocol rt) (firstn 10 registration) = Err EOFError /\
  (exists e, from_bytes (p_HyteraDmrApplicationProtocol rt) (firstn 10 registration ++ B [4]) = Err e /\ e <> EOFError) /\
  (exists v, receive (from_bytes (p_HyteraDmrApplicationProtocol rt)) [] (map (fun x => [x]) registration) = Ok v).
Proof.
  intros rt. split; [|destruct rt; (split; [eexists; split; vm_compute; reflexivity|]); (split; [vm_compute; reflexivity|]);
    (split; [eexists; split; [vm_compute; reflexivity|discriminate]|]); eexists; vm_compute; reflexivity].
  in_list.
Qed.
Print Assumptions C56_truncated_packets.
Print Assumptions C56_other_exceptions_are_final.
Print Assumptions C56_reception_in_pieces.
Print Assumptions C56_prefix_free.
