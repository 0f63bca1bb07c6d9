(** C65, the harmless accesses: code runs as the property does, and interleavings of accesses that leave the stream alone. *)
From Verif Require Import PyBase Runtime Codec Enums RuntimeProofs Getters EtsiModel HomebrewModel HyteraModel MotorolaModel LazyModel KsySchema SessionModel SessionProofs ThreadModel ThreadProofs.
Open Scope string_scope.
Open Scope list_scope.
Open Scope Z_scope.

(** Accesses that do not use the stream of the object as it is: stored attributes, properties computed from them, and
    properties that are cached; and RealTimeTransportProtocol's two when the padding bit is clear. *)
Definition harmless (c : string) (o : live) (x : string) : Prop := is_cache x = false /\
  (In (c, x) file_properties -> lookup ("_m_" ++ x)%string (l_attrs o) <> None \/ (c = "RealTimeTransportProtocol" /\ rtp_padding_bit o = Ok false)).

Lemma forget_new x a : lookup ("_m_" ++ x)%string a = None -> filter (fun nv : string * pyval => negb (String.eqb (fst nv) ("_m_" ++ x)%string)) a = a.
Proof.
  induction a as [|[k w] a IH]; [reflexivity|]. cbn [lookup filter fst]. destruct (String.eqb_spec ("_m_" ++ x)%string k) as [E|E]; [discriminate|]. intros H.
  destruct (String.eqb_spec k ("_m_" ++ x)%string); [congruence|]. cbn [negb]. now rewrite IH.
Qed.
Lemma pure_extra {A} (r : attrs -> res A) a e : (forall a m v, is_cache m = true -> r (a ++ [(m, v)]) = r a) -> Forall (fun nv : string * pyval => is_cache (fst nv) = true) e -> r (a ++ e) = r a.
Proof.
  intros R. revert a. induction e as [|[m v] e IH]; intros a F; [now rewrite app_nil_r|]. inversion F; subst. change ((m, v) :: e) with ([(m, v)] ++ e). rewrite app_assoc, IH by assumption. now apply R.
Qed.
Lemma lookup_extra x e : is_cache x = false -> Forall (fun nv : string * pyval => is_cache (fst nv) = true) e -> lookup x e = None.
Proof.
  intros X. induction e as [|[m v] e IH]; [reflexivity|]. intros F. inversion F as [|? ? F1 F2]; subst. cbn [lookup]. destruct (String.eqb_spec x m) as [->|]; [cbn [fst] in F1; congruence|auto].
Qed.
Lemma find_key rt c x e : find (fun e => String.eqb (fst (fst e)) c && String.eqb (snd (fst e)) x) (properties rt) = Some e -> fst e = (c, x) /\ In e (properties rt).
Proof.
  intros F. apply find_some in F. destruct F as [F1 F2]. apply andb_prop in F2. destruct F2 as [A B]. apply String.eqb_eq in A, B. destruct e as [[c' x'] g]. cbn [fst snd] in *. subst. auto.
Qed.
(** A cached property is answered from the cache. *)
Lemma ask_cached rt c x o v : In (c, x) file_properties -> lookup ("_m_" ++ x)%string (l_attrs o) = Some v -> fst (ask rt c x o) = Ok v.
Proof.
  intros H E. cbn [file_properties In] in H. decompose [or] H; try contradiction.
  all: match goal with H : (_, _) = (_, _) |- _ => injection H as <- <- end.
  all: unfold ask, properties; cbn [find fst snd String.eqb Ascii.eqb Bool.eqb andb].
  all: unfold Homebrew2015_fifth_letter_property, Mmdvm2020_fifth_letter_property, TelemetryProtocol_specific_service_property, RealTimeTransportProtocol_len_padding_if_exists_property, RealTimeTransportProtocol_len_padding_property, LocationProtocol_opcode, DmrDataHeader_data, memo.
  all: cbn [append] in *; rewrite E; reflexivity.
Qed.
(** The shape of the code. *)
Inductive shape (rt : runtime) (c x : string) : Prop :=
| Plain : (forall o, ask rt c x o = stored_attribute x o) -> code rt c x = local (fun o => Done (match lookup x (l_attrs o) with Some v => Ok v | None => Err (AttributeError x) end)) -> ~ In (c, x) file_properties -> shape rt c x
| Value g m : ~ In (c, x) file_properties -> (forall o, ask rt c x o = memo x m o) -> (forall o, g o = memo x m o) -> pure m -> code rt c x = value_code x g -> shape rt c x
| File rest : In (c, x) file_properties -> code rt c x = unless_cached x rest -> shape rt c x.
Lemma shapes rt c x : shape rt c x.
Proof.
  unfold code.
  destruct (String.eqb c "DmrDataHeader" && String.eqb x "data") eqn:E1.
  { apply andb_prop in E1. destruct E1 as [A B]. apply String.eqb_eq in A, B. subst. eapply File; [cbn; tauto|reflexivity]. }
  destruct (String.eqb c "LocationProtocol" && String.eqb x "opcode") eqn:E2.
  { apply andb_prop in E2. destruct E2 as [A B]. apply String.eqb_eq in A, B. subst. eapply File; [cbn; tauto|reflexivity]. }
  destruct (String.eqb c "TelemetryProtocol" && String.eqb x "specific_service") eqn:E3.
  { apply andb_prop in E3. destruct E3 as [A B]. apply String.eqb_eq in A, B. subst. eapply File; [cbn; tauto|reflexivity]. }
  destruct ((String.eqb c "Homebrew2015" || String.eqb c "Mmdvm2020") && String.eqb x "fifth_letter") eqn:E4.
  { apply andb_prop in E4. destruct E4 as [A B]. apply String.eqb_eq in B. apply orb_prop in A. destruct A as [A|A]; apply String.eqb_eq in A; subst; (eapply File; [cbn; tauto|reflexivity]). }
  destruct (String.eqb c "RealTimeTransportProtocol" && String.eqb x "len_padding_if_exists") eqn:E5.
  { apply andb_prop in E5. destruct E5 as [A B]. apply String.eqb_eq in A, B. subst. eapply File; [cbn; tauto|reflexivity]. }
  destruct (String.eqb c "RealTimeTransportProtocol" && String.eqb x "len_padding") eqn:E6.
  { apply andb_prop in E6. destruct E6 as [A B]. apply String.eqb_eq in A, B. subst. eapply File; [cbn; tauto|reflexivity]. }
  assert (NF : ~ In (c, x) file_properties).
  { intros H. cbn [file_properties In] in H. decompose [or] H; try contradiction. all: match goal with H : (_, _) = (_, _) |- _ => injection H as <- <- end; discriminate. }
  destruct (find (fun e => String.eqb (fst (fst e)) c && String.eqb (snd (fst e)) x) (properties rt)) as [e|] eqn:F.
  - pose proof (find_key _ _ _ _ F) as [K1 K2]. destruct (proj1 (Forall_forall _ _) (all_kinds rt) _ K2) as [[m [M1 M2]]|X]; [|rewrite K1 in X; contradiction].
    rewrite K1 in M1. cbn [snd] in M1. eapply (Value rt c x (snd e) m); [exact NF| |exact M1|exact M2|unfold code; rewrite E1, E2, E3, E4, E5, E6, F; reflexivity]. intros o. unfold ask. rewrite F. apply M1.
  - apply Plain; [|unfold code; rewrite E1, E2, E3, E4, E5, E6, F; reflexivity|exact NF]. intros o. unfold ask. rewrite F. reflexivity.
Qed.

Section Safe.
Context (rt : runtime) (c : string) (o0 : live).
Definition Inv (o : live) : Prop := l_io o = l_io o0 /\ exists extra, l_attrs o = l_attrs o0 ++ extra /\
  Forall (fun nv => exists x, fst nv = ("_m_" ++ x)%string /\ lookup ("_m_" ++ x)%string (l_attrs o0) = None /\ fst (ask rt c x o0) = Ok (snd nv)) extra.
Lemma inv_caches (extra : attrs) (P : string * pyval -> Prop) : Forall (fun nv => exists x, fst nv = ("_m_" ++ x)%string /\ lookup ("_m_" ++ x)%string (l_attrs o0) = None /\ fst (ask rt c x o0) = Ok (snd nv)) extra -> Forall (fun nv : string * pyval => is_cache (fst nv) = true) extra.
Proof. apply Forall_impl. intros nv [x [-> _]]. apply cache_name. Qed.
Lemma inv_lookup o x v : Inv o -> lookup ("_m_" ++ x)%string (l_attrs o) = Some v ->
  lookup ("_m_" ++ x)%string (l_attrs o0) = Some v \/ (lookup ("_m_" ++ x)%string (l_attrs o0) = None /\ fst (ask rt c x o0) = Ok v).
Proof.
  intros [_ [e [-> F]]] L. rewrite lookup_app in L. destruct (lookup _ (l_attrs o0)) as [w|]; [left; exact L|]. right. split; [reflexivity|].
  induction F as [|[m w] e [y [Y1 [Y2 Y3]]] F IH]; [discriminate|]. cbn [lookup fst snd] in *. destruct (String.eqb_spec ("_m_" ++ x)%string m) as [E|E]; [|now apply IH].
  injection L as <-. assert (x = y) as -> by (apply m_inj; congruence). exact Y3.
Qed.
Lemma inv_set o x v : Inv o -> lookup ("_m_" ++ x)%string (l_attrs o0) = None -> fst (ask rt c x o0) = Ok v -> Inv {| l_attrs := set_attr ("_m_" ++ x)%string v (l_attrs o); l_io := l_io o |}.
Proof.
  intros I N A. destruct (lookup ("_m_" ++ x)%string (l_attrs o)) as [w|] eqn:E.
  - assert (w = v) as -> by (destruct (inv_lookup o x w I E) as [H|[_ H]]; congruence). rewrite set_same by exact E. destruct o. exact I.
  - destruct I as [I1 [e [I2 I3]]]. split; [exact I1|]. cbn [l_attrs]. rewrite set_new by exact E. exists (e ++ [("_m_" ++ x, v)%string]). split; [rewrite I2; now rewrite app_assoc|].
    apply Forall_app. split; [exact I3|]. constructor; [|constructor]. exists x. cbn [fst snd]. auto.
Qed.
Lemma rtp_bit o : Inv o -> rtp_padding_bit o = rtp_padding_bit o0.
Proof.
  intros [_ [e [E F]]]. unfold rtp_padding_bit. rewrite E. unfold bind at 1 4. unfold stored. rewrite lookup_app. destruct (lookup "fixed_header" (l_attrs o0)) as [h|]; [reflexivity|].
  rewrite (lookup_extra "fixed_header" e eq_refl); [reflexivity|]. exact (inv_caches e (fun _ => True) F).
Qed.
Lemma rtp_if_none : lookup "_m_len_padding_if_exists" (l_attrs o0) = None -> rtp_padding_bit o0 = Ok false -> fst (ask rt "RealTimeTransportProtocol" "len_padding_if_exists" o0) = Ok VNone.
Proof.
  intros L P. unfold ask, properties. cbn [find fst snd String.eqb Ascii.eqb Bool.eqb andb]. unfold RealTimeTransportProtocol_len_padding_if_exists_property. rewrite L. revert P. unfold rtp_padding_bit, bind, stored, attribute, truth, ret, fail.
  destruct (lookup "fixed_header" (l_attrs o0)) as [h|]; [|discriminate]. destruct (getattr "padding" h) as [p|]; [|discriminate]. destruct p; try discriminate. destruct b; [discriminate|]. reflexivity.
Qed.
Lemma rtp_pad_none : lookup "_m_len_padding" (l_attrs o0) = None -> rtp_padding_bit o0 = Ok false -> fst (ask rt "RealTimeTransportProtocol" "len_padding" o0) = Ok (VInt 0).
Proof.
  intros L P. unfold ask, properties. cbn [find fst snd String.eqb Ascii.eqb Bool.eqb andb]. unfold RealTimeTransportProtocol_len_padding_property. rewrite L. revert P. unfold rtp_padding_bit, bind, stored, attribute, truth, ret, fail.
  destruct (lookup "fixed_header" (l_attrs o0)) as [h|]; [|discriminate]. destruct (getattr "padding" h) as [p|]; [|discriminate]. destruct p; try discriminate. destruct b; [discriminate|]. reflexivity.
Qed.
Lemma code_leads x : harmless c o0 x -> leads Inv (fun r => r = fst (ask rt c x o0)) [] 4 (code rt c x).
Proof.
  intros [X H]. destruct (shapes rt c x) as [A E NF|g m NF A G [r [R1 R2]] E|rest IF E]; rewrite E.
  - apply leads_local. intros o [_ [e [I2 I3]]] _. constructor. rewrite A. cbn [stored_attribute fst]. rewrite I2, lookup_app. destruct (lookup x (l_attrs o0)); [reflexivity|].
    now rewrite (lookup_extra x e X (inv_caches e (fun _ => True) I3)).
  - assert (C : forall o v, Inv o -> lookup ("_m_" ++ x)%string (l_attrs o) = Some v -> Ok v = fst (ask rt c x o0)).
    { intros o v I L. destruct (inv_lookup o x v I L) as [K|[_ K]]; [|now symmetry]. rewrite A. unfold memo. now rewrite K. }
    destruct (lookup ("_m_" ++ x)%string (l_attrs o0)) as [v0|] eqn:L0.
    + unfold value_code. (* the cache is there from the start *)
      unfold unless_cached. apply (L_step Inv _ [] (fun _ => [("_m_" ++ x)%string])).
      * intros o I _. split; [exact I|]. split; [|apply grows_refl]. intros y [<-|[]]. destruct I as [_ [e [-> _]]]. rewrite lookup_app, L0. discriminate.
      * intros o I _. assert (lookup ("_m_" ++ x)%string (l_attrs o) = Some v0) as -> by (destruct I as [_ [e [-> _]]]; now rewrite lookup_app, L0).
        apply leads_local. intros o' I' H'. specialize (H' _ (or_introl eq_refl)). destruct (lookup ("_m_" ++ x)%string (l_attrs o')) as [w|] eqn:E'; [|contradiction]. constructor. exact (C _ _ I' E').
    + apply leads_cached; [exact C|lia|]. apply leads_local. intros o I _. rewrite G. unfold memo, forget. cbn [l_attrs l_io].
      destruct I as [I1 [e [I2 I3]]]. rewrite I2. rewrite filter_app, (forget_new x _ L0).
      set (e' := filter _ e). assert (F' : Forall (fun nv : string * pyval => is_cache (fst nv) = true) e').
      { apply Forall_forall. intros nv K. apply filter_In in K. exact (proj1 (Forall_forall _ _) (inv_caches e (fun _ => True) I3) nv (proj1 K)). }
      assert (lookup ("_m_" ++ x)%string (l_attrs o0 ++ e') = None) as ->.
      { rewrite lookup_app, L0. unfold e'. clear. induction e as [|[k w] e IH]; [reflexivity|]. cbn [filter fst]. destruct (String.eqb_spec k ("_m_" ++ x)%string) as [->|N]; cbn [negb]; [exact IH|]. cbn [lookup].
        destruct (String.eqb_spec ("_m_" ++ x)%string k); [congruence|exact IH]. }
      rewrite R1, (pure_extra r _ _ R2 F'). assert (AK : fst (ask rt c x o0) = r (l_attrs o0)) by (rewrite A; unfold memo; rewrite L0, R1; destruct (r (l_attrs o0)); reflexivity).
      destruct (r (l_attrs o0)) as [v|err]; cbn [fst]; [|constructor; congruence].
      apply leads_assign; [intros o' I'; now apply inv_set|]. apply leads_return. exact C.
  - destruct (H IF) as [L|[Ec P]].
    + destruct (lookup ("_m_" ++ x)%string (l_attrs o0)) as [v0|] eqn:L0; [|contradiction]. unfold unless_cached. apply (L_step Inv _ [] (fun _ => [("_m_" ++ x)%string])).
      * intros o I _. split; [exact I|]. split; [|apply grows_refl]. intros y [<-|[]]. destruct I as [_ [e [-> _]]]. rewrite lookup_app, L0. discriminate.
      * intros o I _. assert (lookup ("_m_" ++ x)%string (l_attrs o) = Some v0) as -> by (destruct I as [_ [e [-> _]]]; now rewrite lookup_app, L0).
        apply leads_local. intros o' I' H'. destruct I' as [_ [e [-> _]]]. rewrite lookup_app, L0. constructor. symmetry. now apply ask_cached.
    + rewrite <- E. clear E rest H. rewrite Ec in IF. replace (ask rt c x o0) with (ask rt "RealTimeTransportProtocol" x o0) by now rewrite Ec. replace (code rt c x) with (code rt "RealTimeTransportProtocol" x) by now rewrite Ec. assert (C : forall o v, Inv o -> lookup ("_m_" ++ x)%string (l_attrs o) = Some v -> Ok v = fst (ask rt "RealTimeTransportProtocol" x o0)).
      { intros o v I L. destruct (inv_lookup o x v I L) as [K|[_ K]]; [|replace (ask rt c x o0) with (ask rt "RealTimeTransportProtocol" x o0) in K by (now rewrite Ec); now symmetry]. symmetry. now apply ask_cached. }
      cbn [file_properties In] in IF. decompose [or] IF; try contradiction.
      all: match goal with H : (_, _) = (_, _) |- _ => try discriminate H; injection H as <- end.
      * change (code rt "RealTimeTransportProtocol" "len_padding_if_exists") with (rtp_if_exists_code rt).
        apply leads_cached; [exact C|lia|]. apply leads_local. intros o I _. rewrite (rtp_bit o I), P.
        apply (leads_more _ _ _ 1); [|lia]. apply leads_local. intros o' I' _. constructor. cbn [append].
        destruct (lookup "_m_len_padding_if_exists" (l_attrs o')) as [v|] eqn:L; [exact (C o' v I' L)|]. symmetry. apply rtp_if_none; [|exact P].
        destruct I' as [_ [e [I2 _]]]. rewrite I2, lookup_app in L. now destruct (lookup "_m_len_padding_if_exists" (l_attrs o0)).
      * change (code rt "RealTimeTransportProtocol" "len_padding") with (rtp_len_padding_code rt).
        destruct (lookup "_m_len_padding" (l_attrs o0)) as [v0|] eqn:L0.
        -- unfold rtp_len_padding_code. cbn [append]. unfold unless_cached. cbn [append]. apply (L_step Inv _ [] (fun _ => ["_m_len_padding"])).
           ++ intros o I _. split; [exact I|]. split; [|apply grows_refl]. intros y [<-|[]]. destruct I as [_ [e [-> _]]]. rewrite lookup_app, L0. discriminate.
           ++ intros o I _. assert (lookup "_m_len_padding" (l_attrs o) = Some v0) as -> by (destruct I as [_ [e [-> _]]]; now rewrite lookup_app, L0).
              apply leads_local. intros o' I' H'. destruct I' as [_ [e [-> _]]]. rewrite lookup_app, L0. constructor. symmetry. now apply ask_cached.
        -- apply leads_cached; [exact C|lia|]. apply leads_local. intros o I _. rewrite (rtp_bit o I), P. cbn [and_then].
           apply leads_assign; [|apply leads_return; exact C]. intros o' I'. apply (inv_set o' "len_padding"); [exact I'|exact L0|]. replace (ask rt c "len_padding" o0) with (ask rt "RealTimeTransportProtocol" "len_padding" o0) by now rewrite Ec. now apply rtp_pad_none.
Qed.
(** What every schedule gives. *)
Lemma safe_run schedule todos : Forall (Forall (harmless c o0)) todos ->
  let '(ts, o) := threads_run rt c schedule (map new_thread todos) o0 in
  (l_io o = l_io o0) /\ (forall n, is_cache n = false -> lookup n (l_attrs o) = lookup n (l_attrs o0)) /\
  forall i todo, nth_error todos i = Some todo -> exists t k, nth_error ts i = Some t /\ t_log t = map (fun x => (x, fst (ask rt c x o0))) (firstn k todo) /\
    ((6 * List.length todo <= times i schedule)%nat -> k = List.length todo).
Proof.
  intros H. pose proof (run_new rt c Inv 4 (fun x r => r = fst (ask rt c x o0)) schedule todos o0) as R.
  assert (I0 : Inv o0) by (split; [reflexivity|exists []; split; [now rewrite app_nil_r|constructor]]). specialize (R I0).
  match type of R with (?A -> _) => assert (P : A) end.
  { intros todo T x X. apply code_leads. exact (proj1 (Forall_forall _ _) (proj1 (Forall_forall _ _) H todo T) x X). }
  specialize (R P). destruct (threads_run rt c schedule (map new_thread todos) o0) as [ts o]. destruct R as [[J1 [e [J2 J3]]] K]. split; [exact J1|]. split.
  { intros n N. rewrite J2, lookup_app, (lookup_extra n e N (inv_caches e (fun _ => True) J3)). now destruct (lookup n (l_attrs o0)). }
  intros i todo E. destruct (K i todo E) as [t [done [T [A [[rest ->] F]]]]]. exists t, (List.length done). split; [exact T|]. split.
  - rewrite firstn_app, Nat.sub_diag, firstn_all, firstn_O, app_nil_r. clear - A. induction A as [|x [y r] d l [E1 E2] A IH]; [reflexivity|]. cbn [map fst snd] in *. rewrite E1, E2. f_equal. exact IH.
  - intros L. assert (D : done = done ++ rest) by (apply F; exact L). rewrite <- D. reflexivity.
Qed.
End Safe.
