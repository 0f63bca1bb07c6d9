(** Property C68 (see properties.jsonl): telling the protocols apart by trying them. *)
From Coq Require Import Lia.
From Verif Require Import PyBase Runtime Codec Spec RuntimeProofs Enums EtsiModel HomebrewModel HyteraModel HomebrewSpec HyteraSpec FieldLocal AllParsers PropHomebrew PropHytera2 PropHytera3.
Open Scope string_scope.
Open Scope list_scope.
Open Scope Z_scope.

(** * Specification *)
(** The protocols that are seen on the UDP ports. *)
Definition protocols : list (string * (runtime -> M pyval)) := [
  ("HyteraRadioNetworkProtocol", p_HyteraRadioNetworkProtocol); ("HyteraSimpleTransportReliabilityProtocol", p_HyteraSimpleTransportReliabilityProtocol);
  ("RealTimeTransportProtocol", p_RealTimeTransportProtocol); ("IpSiteConnectProtocol", p_IpSiteConnectProtocol); ("IpSiteConnectHeartbeat", p_IpSiteConnectHeartbeat);
  ("Homebrew2015", p_Homebrew2015); ("Mmdvm2020", p_Mmdvm2020)].
(** The object is more than a container for unknown bytes: a Homebrew or MMDVM packet with a command it knows, and a
    heartbeat that is a keepalive or a ping/pong. *)
Definition recognised (v : pyval) : Prop :=
  match v with
  | VObj c a => (c = "Homebrew2015" \/ c = "Mmdvm2020" -> lookup "command_data" a <> None) /\
                (c = "IpSiteConnectHeartbeat" -> forall d, lookup "data" a <> Some (VObj "IpSiteConnectHeartbeat.Unknown" d))
  | _ => False end.
Definition takes (rt : runtime) (name : string) (b : bytes) : Prop :=
  exists p v, In (name, p) protocols /\ from_bytes (p rt) b = Ok v /\ recognised v.
(** The pairs that can take the same packet. *)
Definition confusable : list (string * string) := [
  ("IpSiteConnectProtocol", "HyteraRadioNetworkProtocol"); ("IpSiteConnectProtocol", "HyteraSimpleTransportReliabilityProtocol");
  ("IpSiteConnectProtocol", "RealTimeTransportProtocol"); ("Homebrew2015", "Mmdvm2020")].
(** The commands both Homebrew dialects know. *)
Definition common_commands : list string := ["RPTL"; "RPTK"; "RPTC"; "MSTN"; "MSTC"; "DMRD"].

(** A value without the name of the dialect: [Homebrew2015.CallTypes] and [Mmdvm2020.CallTypes] are both [CallTypes]. *)
Fixpoint after_dot (s : string) : string := match s with EmptyString => EmptyString | String c r => if Ascii.eqb c "." then r else after_dot r end.
Fixpoint plain (v : pyval) : pyval :=
  match v with
  | VEnum c n z => VEnum (after_dot c) n z
  | VObj c a => VObj (after_dot c) (map (fun x => (fst x, plain (snd x))) a)
  | VList l => VList (map plain l)
  | _ => v end.

(** [obj.command_data.data] *)
Definition configuration (v : pyval) : option pyval :=
  match getattr "command_data" v with Some d => getattr "data" d | None => None end.

(** * Proofs *)
Transparent slice.
(** What the first octets of a packet that is taken look like. *)
Definition at_ (b : bytes) (i : nat) : Z := bz (nth i b Byte.x00).
Definition letters (b : bytes) : list Z := [at_ b 0; at_ b 1; at_ b 2; at_ b 3].
Definition sign (name : string) (b : bytes) : Prop :=
  (name = "HyteraRadioNetworkProtocol" /\ at_ b 0 = 0x7E) \/
  (name = "HyteraSimpleTransportReliabilityProtocol" /\ at_ b 0 = 0x32 /\ at_ b 1 = 0x42) \/
  (name = "RealTimeTransportProtocol" /\ 128 <= at_ b 0 < 192) \/
  (name = "IpSiteConnectProtocol" /\ at_ b 2 = 0x5A /\ at_ b 3 = 0x5A /\ 72 <= blen b) \/
  (name = "IpSiteConnectHeartbeat" /\ (at_ b 0 = 0 \/ at_ b 0 = 0x5A) /\ blen b <= 20) \/
  (name = "Homebrew2015" /\ In (slice b 0 4) (map blit ["RPTL"; "RPTK"; "RPTC"; "RPTP"; "MSTA"; "MSTN"; "MSTP"; "MSTC"; "DMRD"])) \/
  (name = "Mmdvm2020" /\ In (slice b 0 4) (map blit ["RPTL"; "RPTK"; "RPTC"; "RPTA"; "RPTP"; "RPTO"; "RPTS"; "MSTN"; "MSTP"; "MSTC"; "DMRD"; "DMRA"; "DMRG"])).
Lemma slice4 b w x y z : slice b 0 4 = [w; x; y; z] -> exists t, b = w :: x :: y :: z :: t.
Proof. unfold slice. cbn [Z.to_nat skipn Pos.to_nat]. change (Pos.to_nat 4) with 4%nat. destruct b as [|? [|? [|? [|? ?]]]]; cbn [firstn]; try discriminate. intros [= -> -> -> ->]. eexists; reflexivity. Qed.
Lemma find_in p t f : find_command p t = Some f -> In p (map (fun x => blit (fst x)) t).
Proof.
  induction t as [|[n g] t IH]; cbn [find_command map fst]; [discriminate|]. destruct (bytes_eqb p (blit n)) eqn:E; [|intros H; right; exact (IH H)].
  intros _. left. symmetry. exact (bytes_eqb_true _ _ E).
Qed.
Lemma takes_sign rt name b : takes rt name b -> sign name b.
Proof.
  intros [p [v [I [F R]]]]. unfold protocols in I. cbn [In] in I. decompose [or] I; clear I; try contradiction; match goal with H : (_, _) = (_, _) |- _ => injection H as <- <- end.
  - left. split; [reflexivity|]. rewrite C33_hrnp_framing in F. destruct (blen b <? 1); [discriminate|]. destruct (Z.eqb_spec (ubits b 0 8) 0x7e) as [E|]; [|discriminate]. rewrite <- E. exact (eq_sym (ubits_byte b 0 ltac:(lia))).
  - right; left. split; [reflexivity|]. destruct (C34_hstrp_framing rt b v F) as [_ [E _]]. destruct b as [|x [|y t]]; try discriminate E. vm_compute in E. injection E as -> ->. split; reflexivity.
  - do 2 right; left. split; [reflexivity|]. rewrite C38_rtp_decoding in F. cbv zeta in F. destruct (blen b <? 1); [discriminate|]. destruct (Z.eqb_spec (ubits b 0 2) 2) as [E|]; [|discriminate].
    destruct b as [|x t]; [discriminate E|]. revert E. unfold at_. cbn [nth]. destruct x; vm_compute; intros E; try discriminate E; split; congruence.
  - do 3 right; left. split; [reflexivity|]. rewrite C35_ipsc_decoding in F. destruct (blen b <? 4); [discriminate|]. destruct (bytes_eqb (slice b 2 2) (B [0x5a; 0x5a])) eqn:E; [|discriminate].
    apply bytes_eqb_true in E. destruct (Z.ltb_spec (blen b) 72); [discriminate|]. destruct b as [|? [|? [|x [|y t]]]]; try discriminate E. vm_compute in E. injection E as -> ->. split; [reflexivity|]. split; [reflexivity|assumption].
  - do 4 right; left. split; [reflexivity|]. destruct (C37_heartbeat_classification rt b) as [U [K P]].
    destruct (Z.eq_dec (blen b) 1) as [L|L]; [|destruct (Z.eq_dec (blen b) 20) as [L'|L']].
    + destruct (K L) as [[-> _]|[_ E]]; [|rewrite E in F; discriminate]. split; [left; reflexivity|cbn; lia].
    + destruct (P L') as [[n [-> _]]|[N E]]; [|destruct E as [? [? [? E]]]; rewrite E in F; discriminate]. split; [right; reflexivity|lia].
    + exfalso. rewrite (U L L') in F. injection F as <-. destruct R as [_ R]. exact (R eq_refl _ eq_refl).
  - do 5 right; left. split; [reflexivity|]. rewrite C15_homebrew_decoding in F. unfold Homebrew2015_spec in F. destruct (blen b <? 4); [discriminate|]. destruct (decode_text UTF8 _); [|discriminate].
    destruct (find_command (slice b 0 4) Homebrew2015_commands) as [f|] eqn:E; [exact (find_in _ _ _ E)|]. exfalso. cbn [rbind app] in F. injection F as <-. destruct R as [R _]. exact (R (or_introl eq_refl) eq_refl).
  - do 6 right. split; [reflexivity|]. rewrite C19_mmdvm_decoding in F. unfold Mmdvm2020_spec in F. destruct (blen b <? 4); [discriminate|]. destruct (decode_text ASCII _); [|discriminate].
    destruct (find_command (slice b 0 4) Mmdvm2020_commands) as [f|] eqn:E; [exact (find_in _ _ _ E)|]. exfalso. cbn [rbind app] in F. injection F as <-. destruct R as [R _]. exact (R (or_intror eq_refl) eq_refl).
Qed.
(** The letters of a command. *)
Lemma command_letters b l : In (slice b 0 4) (map blit l) -> Forall (fun s => List.length (blit s) = 4%nat) l -> In (letters b) (map (fun s => letters (blit s)) l).
Proof.
  intros I A. apply in_map_iff in I as [s [E I]]. apply in_map_iff. exists s. split; [|exact I]. pose proof (proj1 (Forall_forall _ _) A s I) as N. cbv beta in N.
  destruct (blit s) as [|w [|x [|y [|z [|]]]]]; try discriminate N. symmetry in E. apply slice4 in E as [t ->]. reflexivity.
Qed.
Definition codes (l : list string) : list (list Z) := map (fun s => letters (blit s)) l.
Lemma commands_start b : In (slice b 0 4) (map blit ["RPTL"; "RPTK"; "RPTC"; "RPTA"; "RPTP"; "RPTO"; "RPTS"; "MSTA"; "MSTN"; "MSTP"; "MSTC"; "DMRD"; "DMRA"; "DMRG"]) ->
  (at_ b 0 = 0x52 \/ at_ b 0 = 0x4D \/ at_ b 0 = 0x44) /\ at_ b 2 <> 0x5A.
Proof.
  intros I. apply command_letters in I; [|repeat constructor]. match type of I with In _ ?l => let c := eval vm_compute in l in change l with c in I end. unfold letters in I. cbn [In] in I.
  decompose [or] I; try contradiction; match goal with H : _ = [_; _; _; _] |- _ => injection H as E0 E1 E2 E3 | H : [_; _; _; _] = _ |- _ => injection H as E0 E1 E2 E3 end; rewrite <- E0, <- E2; split; try tauto; discriminate.
Qed.
Lemma magic_read cls n l path q b k v : object cls (F n 0 (KMagic l path) :: q) b k = Ok v -> slice b (k + 0 / 8) (blen l) = l.
Proof.
  unfold object. cbn [fields f_off f_kind decode]. destruct (fits _ _ _); [|discriminate]. cbv zeta. destruct (bytes_eqb _ l) eqn:E; [|discriminate]. intros _. exact (bytes_eqb_true _ _ E).
Qed.
Lemma ping_pong_2015 rt b : takes rt "Homebrew2015" b -> (slice b 0 4 = blit "RPTP" -> slice b 4 3 = blit "ONG") /\ (slice b 0 4 = blit "MSTP" -> slice b 4 3 = blit "ING").
Proof.
  intros [p [v [I [F R]]]]. unfold protocols in I. cbn [In] in I. decompose [or] I; clear I; try contradiction; match goal with H : (_, _) = (_, _) |- _ => try discriminate H; injection H as <- end.
  rewrite C15_homebrew_decoding in F. unfold Homebrew2015_spec in F. destruct (blen b <? 4); [discriminate|]. destruct (decode_text UTF8 _); [|discriminate].
  split; intros E; rewrite E in F; match type of F with context [find_command ?x ?t] => let f := eval cbn in (find_command x t) in change (find_command x t) with f in F end; unfold cmd in F;
    match type of F with context [object ?c ?l b 4] => destruct (object c l b 4) as [w|] eqn:O end; try discriminate F; apply magic_read in O; exact O.
Qed.
Lemma ping_pong_2020 rt b : takes rt "Mmdvm2020" b -> (slice b 0 4 = blit "RPTP" -> slice b 4 3 = blit "ING") /\ (slice b 0 4 = blit "MSTP" -> slice b 4 3 = blit "ONG").
Proof.
  intros [p [v [I [F R]]]]. unfold protocols in I. cbn [In] in I. decompose [or] I; clear I; try contradiction; match goal with H : (_, _) = (_, _) |- _ => try discriminate H; injection H as <- end.
  rewrite C19_mmdvm_decoding in F. unfold Mmdvm2020_spec in F. destruct (blen b <? 4); [discriminate|]. destruct (decode_text ASCII _); [|discriminate].
  split; intros E; rewrite E in F; match type of F with context [find_command ?x ?t] => let f := eval cbn in (find_command x t) in change (find_command x t) with f in F end; unfold cmd in F;
    match type of F with context [object ?c ?l b 4] => destruct (object c l b 4) as [w|] eqn:O end; try discriminate F; apply magic_read in O; exact O.
Qed.
Ltac both := split; [eexists p_Homebrew2015, _|eexists p_Mmdvm2020, _]; (split; [cbn; tauto|]); (split; [match goal with r : runtime |- _ => destruct r; vm_compute; reflexivity end|]); cbn [recognised lookup String.eqb Ascii.eqb Bool.eqb]; split; try (intros _; discriminate); intros H; discriminate H.
Definition plains (a : attrs) : attrs := map (fun x => (fst x, plain (snd x))) a.
Definition enums_alike (E E' : enumdef) : Prop := en_members E = en_members E' /\ after_dot (en_name E) = after_dot (en_name E').
Definition kinds_alike (K K' : kind) : Prop := K = K' \/ exists E E' f, K = KEnum E f /\ K' = KEnum E' f /\ enums_alike E E'.
Definition fields_alike (f f' : field) : Prop := f_name f = f_name f' /\ f_off f = f_off f' /\ kinds_alike (f_kind f) (f_kind f').
Lemma resolve_alike E E' z : enums_alike E E' -> plain (resolve_enum E z) = plain (resolve_enum E' z).
Proof. intros [M N]. unfold resolve_enum. rewrite M. destruct (en_find _ z); [cbn [plain]; now rewrite N|reflexivity]. Qed.
Lemma decode_alike b k c K K' v w : kinds_alike K K' -> decode b k c K = Ok v -> decode b k c K' = Ok w -> plain v = plain w.
Proof.
  intros [->|[E [E' [f [-> [-> A]]]]]] H H'; [congruence|]. unfold decode in *. change (kwidth (KEnum E f)) with (kwidth (KEnum E' f)) in H. destruct (fits _ _ _); [|discriminate].
  injection H as <-. injection H' as <-. now apply resolve_alike.
Qed.
Lemma fields_plain b k fs fs' : Forall2 fields_alike fs fs' -> forall a a', fields b k fs = Ok a -> fields b k fs' = Ok a' -> plains a = plains a'.
Proof.
  induction 1 as [|f f' fs fs' [N [O K]] _ IH]; intros a a' H H'; cbn [fields] in *; [congruence|]. rewrite <- O in H'.
  destruct (decode b k (f_off f) (f_kind f)) as [v|] eqn:D; [|discriminate]. destruct (decode b k (f_off f) (f_kind f')) as [v'|] eqn:D'; [|discriminate].
  destruct (fields b k fs) as [r|]; [|discriminate]. destruct (fields b k fs') as [r'|]; [|discriminate]. injection H as <-. injection H' as <-.
  unfold plains. cbn [map fst snd]. rewrite N, (decode_alike _ _ _ _ _ _ _ K D D'). f_equal. exact (IH _ _ eq_refl eq_refl).
Qed.
Lemma object_plain c c' b k fs fs' v w : after_dot c = after_dot c' -> Forall2 fields_alike fs fs' -> object c fs b k = Ok v -> object c' fs' b k = Ok w -> plain v = plain w.
Proof.
  intros C A. unfold object. destruct (fields b k fs) as [a|] eqn:F; [|discriminate]. destruct (fields b k fs') as [a'|] eqn:F'; [|discriminate]. cbn [rmap]. intros [= <-] [= <-].
  cbn [plain]. rewrite C. f_equal. exact (fields_plain b k fs fs' A a a' F F').
Qed.
Ltac alike := unfold L_Homebrew2015_TypeRepeaterLoginRequest, L_Mmdvm2020_TypeRepeaterLoginRequest, L_Homebrew2015_TypeRepeaterLoginResponse, L_Mmdvm2020_TypeRepeaterLoginResponse, L_Homebrew2015_TypeRepeaterClosing,
  L_Mmdvm2020_TypeRepeaterClosing, L_Homebrew2015_TypeMasterNotAccept, L_Mmdvm2020_TypeMasterNotAccept, L_Homebrew2015_TypeMasterClosing, L_Mmdvm2020_TypeMasterClosing, L_Homebrew2015_TypeDmrData, L_Mmdvm2020_TypeDmrData;
  repeat apply Forall2_cons; [..|apply Forall2_nil]; (split; [reflexivity|]; split; [reflexivity|]; cbn [f_kind]; first [left; reflexivity|right; do 3 eexists; split; [reflexivity|]; split; [reflexivity|]; split; reflexivity]).
Lemma dmrd_plain b k v w : Homebrew2015_dmrd b k = Ok v -> Mmdvm2020_dmrd b k = Ok w -> plain v = plain w.
Proof.
  unfold Homebrew2015_dmrd, Mmdvm2020_dmrd. destruct (fields b k L_Homebrew2015_TypeDmrData) as [a|] eqn:F; [|discriminate]. destruct (fields b k L_Mmdvm2020_TypeDmrData) as [a'|] eqn:F'; [|discriminate]. cbn [rbind]. intros [= <-] [= <-].
  assert (P : plains a = plains a') by (apply (fields_plain b k L_Homebrew2015_TypeDmrData L_Mmdvm2020_TypeDmrData); [alike|exact F|exact F']). unfold plains in P. cbn [plain]. rewrite !map_app, P. reflexivity.
Qed.
(** * The theorems *)
(** A packet that two of the protocols take is taken by one of four pairs - under every runtime, also if the two are
    tried under different ones. *)
Theorem C68_told_apart : forall (rt rt' : runtime) (n m : string) (b : bytes), takes rt n b -> takes rt' m b ->
  n = m \/ In (n, m) confusable \/ In (m, n) confusable.
Proof.
  intros rt rt' n m b Hn Hm. apply takes_sign in Hn, Hm.
  assert (W : forall k, sign k b ->
    (k = "HyteraRadioNetworkProtocol" /\ at_ b 0 = 0x7E) \/ (k = "HyteraSimpleTransportReliabilityProtocol" /\ at_ b 0 = 0x32) \/ (k = "RealTimeTransportProtocol" /\ 128 <= at_ b 0) \/
    (k = "IpSiteConnectProtocol" /\ at_ b 2 = 0x5A /\ 72 <= blen b) \/ (k = "IpSiteConnectHeartbeat" /\ (at_ b 0 = 0 \/ at_ b 0 = 0x5A) /\ blen b <= 20) \/
    ((k = "Homebrew2015" \/ k = "Mmdvm2020") /\ (at_ b 0 = 0x52 \/ at_ b 0 = 0x4D \/ at_ b 0 = 0x44) /\ at_ b 2 <> 0x5A)).
  { intros k S. unfold sign in S. destruct S as [S|[S|[S|[S|[S|[[E S]|[E S]]]]]]]; [tauto|tauto|tauto|tauto|tauto| |];
      do 5 right; (split; [tauto|]); apply commands_start; cbn [map In] in *; tauto. }
  apply W in Hn, Hm. clear W. unfold confusable. cbn [In].
  destruct Hn as [[-> P]|[[-> P]|[[-> P]|[[-> P]|[[-> P]|[[->| ->] P]]]]]], Hm as [[-> Q]|[[-> Q]|[[-> Q]|[[-> Q]|[[-> Q]|[[->| ->] Q]]]]]]; first [left; reflexivity | right; left; tauto | right; right; tauto | exfalso; lia].
Qed.
(** Each of these pairs does take a common packet. *)
Theorem C68_confusable : forall (rt : runtime) (n m : string), In (n, m) confusable -> exists b, takes rt n b /\ takes rt m b.
Proof.
  intros rt n m I. unfold confusable in I. cbn [In] in I. decompose [or] I; try contradiction; match goal with H : (_, _) = (_, _) |- _ => injection H as <- <- end.
  - exists (B ([0x7E; 0; 0x5A; 0x5A] ++ List.repeat 0 68)). split; [eexists p_IpSiteConnectProtocol, _|eexists p_HyteraRadioNetworkProtocol, _]; (split; [cbn; tauto|]); (split; [destruct rt; vm_compute; reflexivity|]); cbn [recognised]; split; [intros [H|H]|intros H|intros [H|H]|intros H]; discriminate H.
  - exists (B ([0x32; 0x42; 0x5A; 0x5A] ++ List.repeat 0 68)). split; [eexists p_IpSiteConnectProtocol, _|eexists p_HyteraSimpleTransportReliabilityProtocol, _]; (split; [cbn; tauto|]); (split; [destruct rt; vm_compute; reflexivity|]); cbn [recognised]; split; [intros [H|H]|intros H|intros [H|H]|intros H]; discriminate H.
  - exists (B ([0x80; 0x42; 0x5A; 0x5A] ++ List.repeat 0 68)). split; [eexists p_IpSiteConnectProtocol, _|eexists p_RealTimeTransportProtocol, _]; (split; [cbn; tauto|]); (split; [destruct rt; vm_compute; reflexivity|]); cbn [recognised]; split; [intros [H|H]|intros H|intros [H|H]|intros H]; discriminate H.
  - exists (blit "RPTCL" ++ B [1; 2; 3; 4]). split; [eexists p_Homebrew2015, _|eexists p_Mmdvm2020, _]; (split; [cbn; tauto|]); (split; [destruct rt; vm_compute; reflexivity|]); cbn [recognised lookup String.eqb Ascii.eqb Bool.eqb]; split; try (intros _; discriminate); intros H; discriminate H.
Qed.
(** The two Homebrew dialects take a common packet only with one of six commands, and for each of the six there is one. *)
Theorem C68_homebrew_dialects : forall (rt : runtime),
  (forall b, takes rt "Homebrew2015" b -> takes rt "Mmdvm2020" b -> In (slice b 0 4) (map blit common_commands)) /\
  Forall (fun c => exists b, slice b 0 4 = blit c /\ takes rt "Homebrew2015" b /\ takes rt "Mmdvm2020" b) common_commands.
Proof.
  intros rt. split.
  - intros b H M. pose proof (ping_pong_2015 rt b H) as [H1 H2]. pose proof (ping_pong_2020 rt b M) as [M1 M2]. apply takes_sign in H, M. unfold sign in H, M.
    destruct H as [[H _]|[[H _]|[[H _]|[[H _]|[[H _]|[[_ H]|[H _]]]]]]]; try discriminate H. destruct M as [[M _]|[[M _]|[[M _]|[[M _]|[[M _]|[[M _]|[_ M]]]]]]]; try discriminate M.
    unfold common_commands. cbn [map In] in H, M |- *.
    destruct H as [H|[H|[H|[H|[H|[H|[H|[H|[H|[]]]]]]]]]]; try tauto; exfalso; rewrite <- H in M.
    + specialize (H1 (eq_sym H)). specialize (M1 (eq_sym H)). rewrite H1 in M1. discriminate M1.
    + decompose [or] M; try contradiction; match goal with K : _ = _ |- _ => discriminate K end.
    + specialize (H2 (eq_sym H)). specialize (M2 (eq_sym H)). rewrite H2 in M2. discriminate M2.
  - repeat apply Forall_cons; [..|apply Forall_nil].
    + exists (blit "RPTL" ++ B [1; 2; 3; 4]). split; [reflexivity|]. both.
    + exists (blit "RPTK" ++ B (List.repeat 7 36)). split; [reflexivity|]. both.
    + exists (blit "RPTCL" ++ B [1; 2; 3; 4]). split; [reflexivity|]. both.
    + exists (blit "MSTNAK" ++ B [1; 2; 3; 4]). split; [reflexivity|]. both.
    + exists (blit "MSTCL" ++ B [1; 2; 3; 4]). split; [reflexivity|]. both.
    + exists (blit "DMRD" ++ B (List.repeat 7 49)). split; [reflexivity|]. both.
Qed.
(** What both dialects read from one packet is the same but for the names of classes and enumerations - except for the
    repeater configuration, where MMDVM splits the description. *)
Theorem C68_dialects_agree : forall (rt : runtime) (b : bytes) (v w : pyval), from_bytes (p_Homebrew2015 rt) b = Ok v -> from_bytes (p_Mmdvm2020 rt) b = Ok w ->
  recognised v -> recognised w -> (slice b 0 4 = blit "RPTC" -> slice b 4 1 = blit "L") -> plain v = plain w.
Proof.
  intros rt b v w V W R R' NC.
  assert (C : In (slice b 0 4) (map blit common_commands)).
  { apply (proj1 (C68_homebrew_dialects rt) b); [exists p_Homebrew2015, v|exists p_Mmdvm2020, w]; (split; [cbn; tauto|]); split; assumption. }
  rewrite C15_homebrew_decoding in V. unfold Homebrew2015_spec in V. rewrite C19_mmdvm_decoding in W. unfold Mmdvm2020_spec in W. destruct (blen b <? 4); [discriminate|].
  unfold common_commands in C. cbn [map In] in C.
  decompose [or] C; clear C; try contradiction; match goal with H : blit _ = slice b 0 4 |- _ => rewrite <- H in V, W, NC end;
    match type of V with context [decode_text UTF8 (blit ?x)] => let f := eval vm_compute in (decode_text UTF8 (blit x)) in change (decode_text UTF8 (blit x)) with f in V; change (decode_text ASCII (blit x)) with f in W end; cbv iota beta in V, W;
    match type of V with context [find_command ?x ?t] => let f := eval cbn in (find_command x t) in change (find_command x t) with f in V end;
    match type of W with context [find_command ?x ?t] => let f := eval cbn in (find_command x t) in change (find_command x t) with f in W end; unfold cmd in V, W.
  3: { specialize (NC eq_refl). unfold Homebrew2015_config_or_closing in V. unfold Mmdvm2020_config_or_closing in W. destruct (blen b <=? 4); [discriminate|]. rewrite NC in V, W.
    change (decode_text ASCII (blit "L")) with (Some [0x4C]) in V, W. change (bytes_eqb (blit "L") (blit "L")) with true in V, W. cbv iota beta in V, W.
    match type of V with context [object ?c ?l b 4] => destruct (object c l b 4) as [x|] eqn:O end; [|discriminate V]. match type of W with context [object ?c ?l b 4] => destruct (object c l b 4) as [y|] eqn:O' end; [|discriminate W].
    assert (P : plain x = plain y) by (eapply object_plain; [| |exact O|exact O']; [reflexivity|alike]). cbn [rbind app] in V, W. injection V as <-. injection W as <-. cbn [plain map fst snd]. rewrite P. reflexivity. }
  5: { destruct (Homebrew2015_dmrd b 4) as [x|] eqn:O; [|discriminate V]. destruct (Mmdvm2020_dmrd b 4) as [y|] eqn:O'; [|discriminate W]. pose proof (dmrd_plain _ _ _ _ O O') as P.
    cbn [rbind app] in V, W. injection V as <-. injection W as <-. cbn [plain map fst snd]. rewrite P. reflexivity. }
  all: match type of V with context [object ?c ?l ?bb 4] => destruct (object c l bb 4) as [x|] eqn:O end; [|discriminate V]; match type of W with context [object ?c ?l ?bb 4] => destruct (object c l bb 4) as [y|] eqn:O' end; [|discriminate W];
    assert (P : plain x = plain y) by (eapply object_plain; [| |exact O|exact O']; [reflexivity|alike]); cbn [rbind app] in V, W; injection V as <-; injection W as <-; cbn [plain map fst snd]; rewrite P; reflexivity.
Qed.
(** The configuration: all attributes are the same, but the 20 characters of the [description] of Homebrew are 19 characters
    of [description] and one of [slots] in MMDVM. *)
Theorem C68_configuration : forall (rt : runtime) (b : bytes) (v w : pyval), from_bytes (p_Homebrew2015 rt) b = Ok v -> from_bytes (p_Mmdvm2020 rt) b = Ok w ->
  slice b 0 4 = blit "RPTC" -> slice b 4 1 <> blit "L" ->
  exists (before after : attrs) (text : pystr) (slots : Z),
  configuration v = Some (VObj "Homebrew2015.TypeRepeaterConfiguration" (before ++ [("description", VStr (text ++ [slots]))] ++ after)) /\
  configuration w = Some (VObj "Mmdvm2020.TypeRepeaterConfiguration" (before ++ [("description", VStr text); ("slots", VStr [slots])] ++ after)) /\
  List.length text = 19%nat.
Proof.
  intros rt b v w V W C N. rewrite C15_homebrew_decoding in V. unfold Homebrew2015_spec in V. rewrite C19_mmdvm_decoding in W. unfold Mmdvm2020_spec in W. destruct (blen b <? 4); [discriminate|].
  rewrite C in V, W.
  match type of V with context [decode_text UTF8 (blit ?x)] => let f := eval vm_compute in (decode_text UTF8 (blit x)) in change (decode_text UTF8 (blit x)) with f in V; change (decode_text ASCII (blit x)) with f in W end. cbv iota beta in V, W.
  match type of V with context [find_command ?x ?t] => let f := eval cbn in (find_command x t) in change (find_command x t) with f in V end.
  match type of W with context [find_command ?x ?t] => let f := eval cbn in (find_command x t) in change (find_command x t) with f in W end.
  unfold Homebrew2015_config_or_closing in V. unfold Mmdvm2020_config_or_closing in W. destruct (blen b <=? 4); [discriminate|]. destruct (decode_text ASCII (slice b 4 1)) as [c|]; [|discriminate].
  destruct (bytes_eqb (slice b 4 1) (blit "L")) eqn:E; [exfalso; exact (N (bytes_eqb_true _ _ E))|].
  unfold Homebrew2015_config in V. unfold Mmdvm2020_config in W.
  change L_Homebrew2015_TypeRepeaterConfiguration with (firstn 10 L_Homebrew2015_TypeRepeaterConfiguration ++ [F "description" 592 (KStr ASCII 20)] ++ skipn 11 L_Homebrew2015_TypeRepeaterConfiguration) in V.
  change L_Mmdvm2020_TypeRepeaterConfiguration with (firstn 10 L_Homebrew2015_TypeRepeaterConfiguration ++ [F "description" 592 (KStr ASCII 19); F "slots" 744 (KStr ASCII 1)] ++ skipn 11 L_Homebrew2015_TypeRepeaterConfiguration) in W.
  rewrite !fields_app in V, W. destruct (fields b 4 (firstn 10 _)) as [p|]; [|discriminate]. destruct (fields b 4 (skipn 11 _)) as [q|]; [|exfalso; revert V; match goal with |- context [fields b 4 [?f]] => destruct (fields b 4 [f]) end; discriminate].
  destruct (text_rest ASCII b (4 + 298)) as [t|]; [|exfalso; revert V; match goal with |- context [fields b 4 [?f]] => destruct (fields b 4 [f]) end; discriminate].
  cbn [fields f_off f_kind f_name decode kwidth] in V, W. change (4 + 592 / 8) with 78 in V, W. change (4 + 744 / 8) with 97 in W.
  destruct (fits b 4 (592 + 8 * 20)) eqn:F1; [|discriminate]. destruct (fits b 4 (592 + 8 * 19)); [|discriminate].
  apply (fits_iff b 4 (592 + 8 * 20)) in F1. 
  destruct (decode_text ASCII (slice b 78 20)) as [d|] eqn:D; [|discriminate]. destruct (decode_text ASCII (slice b 78 19)) as [x|] eqn:X; [|discriminate]. destruct (fits b 4 (744 + 8 * 1)); [|discriminate]. destruct (decode_text ASCII (slice b 97 1)) as [y|] eqn:Y; [|discriminate].
  cbn [rbind app] in V, W. injection V as <-. injection W as <-. 
  assert (K : d = x ++ y /\ List.length x = 19%nat /\ List.length y = 1%nat).
  { assert (S : slice b 78 20 = slice b 78 19 ++ slice b 97 1).
    { unfold slice. change (Z.to_nat 20) with (19 + 1)%nat. change (Z.to_nat 19) with 19%nat. change (Z.to_nat 1) with 1%nat. change (Z.to_nat 97) with (19 + 78)%nat. change (Z.to_nat 78) with 78%nat.
      assert (SS : forall m n (l : bytes), skipn (n + m) l = skipn n (skipn m l)) by (induction m; intros n l; [rewrite Nat.add_0_r; reflexivity|rewrite Nat.add_succ_r; destruct l; [now rewrite !skipn_nil|apply IHm]]). rewrite SS. clear SS. generalize (skipn 78 b). intros l. clear. do 19 (destruct l as [|? l]; [reflexivity|]). reflexivity. }
    assert (A : forall l m r s' , dec_ascii l = Some r -> dec_ascii m = Some s' -> dec_ascii (l ++ m) = Some (r ++ s')).
    { induction l as [|u l IH]; intros m r s' H1 H2; cbn [dec_ascii app] in *; [injection H1 as <-; exact H2|]. destruct (bz u <? 128); [|discriminate]. destruct (dec_ascii l) as [r'|]; [|discriminate]. cbn [option_map] in H1. injection H1 as <-.
      now rewrite (IH m r' s' eq_refl H2). }
    assert (Len : forall l r, dec_ascii l = Some r -> List.length r = List.length l).
    { induction l as [|u l IH]; intros r H1; cbn [dec_ascii] in H1; [now injection H1 as <-|]. destruct (bz u <? 128); [|discriminate]. destruct (dec_ascii l) as [r'|]; [|discriminate]. cbn [option_map] in H1. injection H1 as <-. cbn [List.length]. now rewrite (IH r' eq_refl). }
    cbn [decode_text] in D, X, Y. split; [rewrite S, (A _ _ _ _ X Y) in D; congruence|]. rewrite (Len _ _ X), (Len _ _ Y). unfold slice. rewrite !firstn_length, !skipn_length. unfold blen in F1. split; lia. }
  destruct K as [-> [Lx Ly]]. destruct y as [|z [|]]; try discriminate Ly. exists p, (q ++ [("unparsed_data", t)]), x, z.
  unfold configuration. cbn [getattr lookup String.eqb Ascii.eqb Bool.eqb]. rewrite <- !app_assoc. split; [reflexivity|]. split; [reflexivity|exact Lx].
Qed.
Example C68_case : exists v w, from_bytes (p_Homebrew2015 V011) (blit "DMRD" ++ B (List.repeat 7 49)) = Ok v /\ from_bytes (p_Mmdvm2020 V011) (blit "DMRD" ++ B (List.repeat 7 49)) = Ok w /\
  recognised v /\ recognised w /\ v <> w /\ plain v = plain w.
Proof.
  do 2 eexists. split; [vm_compute; reflexivity|]. split; [vm_compute; reflexivity|].
  split; [cbn [recognised lookup String.eqb Ascii.eqb Bool.eqb]; split; [intros _; discriminate|intros H; discriminate H]|]. split; [cbn [recognised lookup String.eqb Ascii.eqb Bool.eqb]; split; [intros _; discriminate|intros H; discriminate H]|]. split; [discriminate|vm_compute; reflexivity].
Qed.

Example C68_configuration_case : exists v w, let b := blit "RPTC" ++ B (List.repeat 0x30 298) in from_bytes (p_Homebrew2015 V010) b = Ok v /\ from_bytes (p_Mmdvm2020 V010) b = Ok w /\
  slice b 0 4 = blit "RPTC" /\ slice b 4 1 <> blit "L" /\ exists d, configuration w = Some d /\ getattr "slots" d = Some (VStr [0x30]).
Proof.
  do 2 eexists. cbv zeta. split; [vm_compute; reflexivity|]. split; [vm_compute; reflexivity|]. split; [reflexivity|]. split; [vm_compute; discriminate|]. eexists. split; [vm_compute; reflexivity|]. vm_compute. reflexivity.
Qed.

Definition C68_all := (C68_told_apart, C68_confusable, C68_homebrew_dialects, C68_dialects_agree, C68_configuration).
Print Assumptions C68_all.
