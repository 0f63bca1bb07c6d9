(** * C58: the objects a parser returns conform to the format definition of the class.

    [KsySchema.v] says what a definition promises about an object: its attributes, their order, which of them can
    be missing, and for each attribute its kind, range, enum and (for bytes) length; recursively. *)
From Coq Require Import Lia.
From Verif Require Import PyBase Runtime Codec Enums EnumProofs EtsiModel HomebrewModel HyteraModel MotorolaModel AllParsers PropGeneral2 Ksy KsyDefs KsySchema KsyTyped PropKsy.
Open Scope string_scope.
Open Scope list_scope.
Open Scope Z_scope.

Lemma ksy_object rt T b v : typ_names T = true -> from_bytes (ksy_read rt T) b = Ok v -> object_of T v.
Proof.
  intros N H. assert (W : wf (stream_of b)) by (split; cbn; lia). pose proof (typ_typed rt T [] (stream_of b) W) as G.
  unfold from_bytes, ksy_read, bind in H. destruct (run_typ rt T [] (stream_of b)) as [[[w f]|e] s']; cbn in H; [|discriminate].
  destruct G as [_ [_ G]]. assert (w = v) as -> by congruence. exact (G N).
Qed.

Lemma names_ok : forallb (fun d => typ_names (snd d)) definitions = true. Proof. vm_compute. reflexivity. Qed.
Lemma name_ok n T : In (n, T) definitions -> typ_names T = true.
Proof. intros H. pose proof (proj1 (forallb_forall _ _) names_ok _ H) as N. exact N. Qed.

Lemma nodup_names : nodup_s (map fst definitions) = true. Proof. vm_compute. reflexivity. Qed.
Lemma nodup_unique {A} (l : list (string * A)) : nodup_s (map fst l) = true -> forall n x y, In (n, x) l -> In (n, y) l -> x = y.
Proof.
  induction l as [|[m z] l IH]; cbn [map fst nodup_s In]; intros H n x y; [tauto|]. apply andb_true_iff in H as [H1 H2].
  assert (X : forall w, In (m, w) l -> False).
  { intros w Hw. assert (existsb (String.eqb m) (map fst l) = true); [|now rewrite H in H1]. apply existsb_s_in. now apply (in_map fst) in Hw. }
  intros [E|Hx] [E'|Hy]; [congruence|assert (n = m) as -> by congruence; exfalso; eauto|assert (n = m) as -> by congruence; exfalso; eauto|eauto].
Qed.

(** Whatever a class returns for whatever bytes is an object of its definition. *)
Theorem C58_objects_conform : forall name T p, In (name, T) definitions -> In (name, p) all_parsers ->
  forall rt b v, from_bytes (p rt) b = Ok v -> object_of T v.
Proof.
  intros name T p HT Hp rt b v H. destruct (C54_from_bytes name p Hp) as [T' [HT' E]].
  assert (T' = T) as -> by exact (nodup_unique _ nodup_names _ _ _ HT' HT).
  apply (ksy_object rt T b v (name_ok _ _ HT)). now rewrite E.
Qed.

(** ** The objects inside *)

(** [inside w v]: [w] is [v], or an item of a list or the value of an attribute in [v] (at any depth). *)
Inductive inside : pyval -> pyval -> Prop :=
| In_self v : inside v v
| In_attr w c a x v : In (x, v) a -> is_cache x = false -> inside w v -> inside w (VObj c a)
| In_item w l v : In v l -> inside w v -> inside w (VList l).

(** the types and enums a definition refers to *)
Fixpoint ty_refs (t : ty) : list typ :=
  match t with TValid t _ | TSized _ t => ty_refs t | TImported t | TLocal t => [t] | TSwitch _ cs => cases_refs cs | _ => [] end
with cases_refs (cs : cases) : list typ :=
  match cs with CNil => [] | CDefault t => ty_refs t | CCons _ t cs => ty_refs t ++ cases_refs cs end.
Fixpoint seq_refs (q : attr_list) : list typ := match q with Nil => [] | Attr _ _ _ _ t q => ty_refs t ++ seq_refs q end.
Definition typ_refs (t : typ) : list typ := match t with Typ _ q => seq_refs q end.
Fixpoint seq_enums (q : attr_list) : list enumdef :=
  match q with Nil => [] | Attr _ _ _ (Some E) _ q => E :: seq_enums q | Attr _ _ _ None _ q => seq_enums q end.
Definition typ_enums (t : typ) : list enumdef := match t with Typ _ q => seq_enums q end.

(** The types that refer to their parent object are only used inside that parent (in Python: nested classes that
    cannot be used on their own), so [definitions], which lists the classes with a [from_bytes], lacks them. *)
Definition embedded : list (string * typ) := [
  ("AutomaticRegistrationService_AcknowledgementMessage", T_AutomaticRegistrationService_AcknowledgementMessage);
  ("AutomaticRegistrationService_DeviceRegistrationMessage", T_AutomaticRegistrationService_DeviceRegistrationMessage);
  ("DataTransmitProtocol_DataSliceTransmit", T_DataTransmitProtocol_DataSliceTransmit);
  ("DataTransmitProtocol_DtpRequest", T_DataTransmitProtocol_DtpRequest);
  ("Homebrew2015_TypeRepeaterConfigurationOrClosing", T_Homebrew2015_TypeRepeaterConfigurationOrClosing);
  ("Mmdvm2020_TypeRepeaterConfigurationOrClosing", T_Mmdvm2020_TypeRepeaterConfigurationOrClosing);
  ("MotTextMessageProtocol_TextMessage", T_MotTextMessageProtocol_TextMessage);
  ("MotTextMessageProtocol_TmsAcknowledgement", T_MotTextMessageProtocol_TmsAcknowledgement);
  ("MotTextMessageProtocol_TmsServiceAvailability", T_MotTextMessageProtocol_TmsServiceAvailability);
  ("RadioControlProtocol_GenericData", T_RadioControlProtocol_GenericData);
  ("RadioControlProtocol_RadioIdentificationReply", T_RadioControlProtocol_RadioIdentificationReply)].
Definition all_definitions : list (string * typ) := definitions ++ embedded.
Definition types : list typ := map snd all_definitions.

Ltac ref_index x l := lazymatch l with (_, x) :: _ => constr:(O) | _ :: ?r => let n := ref_index x r in constr:(S n) end.
Ltac is_type := lazymatch goal with |- In ?x types => let l := eval cbv delta [all_definitions definitions embedded app] beta iota in all_definitions in let n := ref_index x l in apply (nth_error_In types n); reflexivity end.
Ltac index x l := lazymatch l with x :: _ => constr:(O) | _ :: ?r => let n := index x r in constr:(S n) end.
Ltac in_list := lazymatch goal with |- In ?x ?l => let l' := eval unfold all_parsers in l in let n := index x l' in apply (nth_error_In l n); reflexivity end.
Ltac is_def := lazymatch goal with |- In ?x ?l => let l' := eval unfold definitions in l in let n := index x l' in apply (nth_error_In l n); reflexivity end.
Lemma closed : Forall (fun d => Forall (fun t => In t types) (typ_refs (snd d))) all_definitions.
Proof.
  cbv delta [all_definitions definitions embedded app] beta iota.
  repeat (apply Forall_cons; [cbn [snd]; match goal with |- Forall _ (typ_refs ?T) => unfold T; cbn [typ_refs seq_refs ty_refs cases_refs app] end; repeat (apply Forall_cons; [is_type|]); apply Forall_nil|]).
  apply Forall_nil.
Qed.
Lemma enums_ok : forallb (fun d => forallb (fun E => existsb (enum_eqb E) all_enums) (typ_enums (snd d))) all_definitions = true.
Proof. vm_compute. reflexivity. Qed.

(** an object of one of the classes, or a declared member of one of the enums, or neither an object nor a member *)
Definition legitimate (w : pyval) : Prop :=
  match w with
  | VObj _ _ => exists T, In T types /\ object_of T w
  | VEnum c m z => exists E, In E all_enums /\ en_name E = c /\ In (z, m) (en_members E)
  | _ => True
  end.
Definition known (en : option enumdef) : Prop := match en with Some E => In E all_enums | None => True end.

Scheme typed_m := Induction for typed Sort Prop
with one_of_m := Induction for one_of Sort Prop
with occurs_m := Induction for occurs Sort Prop
with all_typed_m := Induction for all_typed Sort Prop
with has_attributes_m := Induction for has_attributes Sort Prop
with object_of_m := Induction for object_of Sort Prop.

Definition all_legit (v : pyval) : Prop := forall w, inside w v -> legitimate w.

Lemma atom v : legitimate v -> match v with VObj _ _ | VList _ => False | _ => True end -> all_legit v.
Proof. intros L A w H. inversion H; subst; [exact L|destruct A|destruct A]. Qed.
Lemma member en lo hi v : known en -> number_or_member en lo hi v -> all_legit v.
Proof.
  intros Kn H. apply atom; destruct en as [E|]; cbn [number_or_member] in H.
  - destruct H as [[m [z [-> [H _]]]]|[z [-> _]]]; [exists E; now repeat split|exact I].
  - destruct H as [z [-> _]]. exact I.
  - destruct H as [[m [z [-> _]]]|[z [-> _]]]; exact I.
  - destruct H as [z [-> _]]. exact I.
Qed.

Lemma object_legit T v : In T types -> object_of T v -> all_legit v.
Proof.
  intros HT H. revert HT.
  refine (object_of_m
    (fun en t v _ => known en -> Forall (fun t => In t types) (ty_refs t) -> all_legit v)
    (fun en cs v _ => known en -> Forall (fun t => In t types) (cases_refs cs) -> all_legit v)
    (fun r en t v _ => known en -> Forall (fun t => In t types) (ty_refs t) -> all_legit v)
    (fun en t l _ => known en -> Forall (fun t => In t types) (ty_refs t) -> forall v, In v l -> all_legit v)
    (fun q a _ => Forall (fun E => In E all_enums) (seq_enums q) -> Forall (fun t => In t types) (seq_refs q) -> forall x v, In (x, v) a -> all_legit v)
    (fun T v _ => In T types -> all_legit v)
    _ _ _ _ _ _ _ _ _ _ _ _ _ _ _ _ _ _ _ _ _ _ _ _ T v H); clear T v H.
  - intros en n v H Kn _. exact (member _ _ _ _ Kn H).
  - intros. apply atom; exact I.
  - intros en f v H Kn _. exact (member _ _ _ _ Kn H).
  - intros; apply atom; exact I.
  - intros; apply atom; exact I.
  - intros; apply atom; exact I.
  - intros; apply atom; exact I.
  - intros; apply atom; exact I.
  - intros; apply atom; exact I.
  - intros en t v _ IH _ R. apply IH. now inversion R.
  - intros en t v _ IH _ R. apply IH. now inversion R.
  - intros en e t v _ IH Kn R. exact (IH Kn R).
  - intros en e cs v _ IH Kn R. exact (IH Kn R).
  - intros en t v _ IH Kn R. exact (IH Kn R).
  - intros en k t cs v _ IH Kn R. cbn [cases_refs] in R. apply Forall_app in R as [R _]. exact (IH Kn R).
  - intros en k t cs v _ IH Kn R. cbn [cases_refs] in R. apply Forall_app in R as [_ R]. exact (IH Kn R).
  - intros en t v _ IH Kn R. exact (IH Kn R).
  - intros r en t l _ _ IH Kn R w Hw. inversion Hw; subst; [exact I|]. eapply IH; eassumption.
  - intros en t _ _ v [].
  - intros en t v l _ IHv _ IHl Kn R u [<-|Hu]; [exact (IHv Kn R)|exact (IHl Kn R u Hu)].
  - intros _ _ x v [].
  - intros x c r en t q v a _ IHv _ IHa En R y w Hy. cbn [seq_refs] in R. apply Forall_app in R as [R1 R2].
    assert (known en /\ Forall (fun E => In E all_enums) (seq_enums q)) as [Kn En'].
    { cbn [seq_enums] in En. destruct en; [inversion En; subst; now split|now split]. }
    destruct Hy as [Hy|Hy]; [assert (w = v) as -> by congruence; exact (IHv Kn R1)|exact (IHa En' R2 y w Hy)].
  - intros x c r en t q a _ _ IHa En R y w Hy. cbn [seq_refs] in R. apply Forall_app in R as [R1 R2].
    assert (Forall (fun E => In E all_enums) (seq_enums q)) as En'.
    { cbn [seq_enums] in En. destruct en; [inversion En; now subst|exact En]. }
    exact (IHa En' R2 y w Hy).
  - intros path q a H IH HT. apply in_map_iff in HT as [[n T] [E HT]]. cbn [snd] in E. subst T.
    pose proof (proj1 (Forall_forall _ _) closed _ HT) as R. cbn [snd typ_refs] in R.
    pose proof (proj1 (forallb_forall _ _) enums_ok _ HT) as En. cbn [snd typ_enums] in En.
    assert (En' : Forall (fun E => In E all_enums) (seq_enums q)).
    { apply Forall_forall. intros E HE. pose proof (proj1 (forallb_forall _ _) En _ HE) as X. apply existsb_exists in X as [E' [HE' X]]. apply enum_eqb_eq in X. now subst. }
    intros w Hw. inversion Hw; subst.
    + exists (Typ path q). split; [apply in_map_iff; exists (n, Typ path q); now split|now constructor].
    + eapply (IH En' R); [|eassumption]. apply filter_In. split; [eassumption|]. cbn [fst]. now rewrite H4.
Qed.

(** Every object in the result, at whatever depth, is an object of one of the definitions, ... *)
Theorem C58_objects_inside_conform : forall name p, In (name, p) all_parsers -> forall rt b v, from_bytes (p rt) b = Ok v ->
  forall c a, inside (VObj c a) v -> exists n T, In (n, T) all_definitions /\ object_of T (VObj c a).
Proof.
  intros name p Hp rt b v H c a Hi. destruct (C54_from_bytes name p Hp) as [T [HT _]].
  pose proof (C58_objects_conform _ _ _ HT Hp rt b v H) as Ho.
  assert (HT' : In T types) by (apply in_map_iff; exists (name, T); split; [reflexivity|apply in_or_app; now left]).
  destruct (object_legit T v HT' Ho _ Hi) as [T' [H1 H2]]. apply in_map_iff in H1 as [[n T2] [E H1]]. cbn [snd] in E. subst T2. eauto.
Qed.

(** ... and every enum member in it is declared, with that number, in the enum it says it is of. *)
Theorem C58_members_are_declared : forall name p, In (name, p) all_parsers -> forall rt b v, from_bytes (p rt) b = Ok v ->
  forall e m z, inside (VEnum e m z) v -> exists E, In E all_enums /\ en_name E = e /\ In (z, m) (en_members E).
Proof.
  intros name p Hp rt b v H e m z Hi. destruct (C54_from_bytes name p Hp) as [T [HT _]].
  pose proof (C58_objects_conform _ _ _ HT Hp rt b v H) as Ho.
  assert (HT' : In T types) by (apply in_map_iff; exists (name, T); split; [reflexivity|apply in_or_app; now left]).
  exact (object_legit T v HT' Ho _ Hi).
Qed.

(** ** What this says about one class: DmrCsbk (the attributes of every object it can return) *)
Ltac inv H := inversion H; subst; clear H.
Ltac peel := repeat match goal with
  | H : has_attributes (Attr _ _ _ _ _ _) _ |- _ => inv H
  | H : has_attributes Nil _ |- _ => inv H
  | H : _ <> _ \/ _ |- _ => destruct H as [H|[_ H]]; [congruence|try discriminate H]
  | H : occurs Once _ _ _ |- _ => inv H
  | H : ?r <> ?r |- _ => congruence
  end.

Theorem C58_csbk : forall b v, from_bytes p_DmrCsbk b = Ok v -> exists a last prot op fid rest, v = VObj "DmrCsbk" a /\
  public a = [("last_block", VBool last); ("protect_flag", VBool prot); ("csbk_opcode", op); ("feature_set_id", VInt fid)] ++ rest /\
  0 <= fid < 256 /\
  ((exists m z, op = VEnum "DmrCsbk.CsbkoTypes" m z /\ In (z, m) (en_members DmrCsbk_CsbkoTypes) /\ 0 <= z < 64) \/
   (exists z, op = VInt z /\ ~ In z (map fst (en_members DmrCsbk_CsbkoTypes)) /\ 0 <= z < 64)) /\
  (rest = [] \/ exists c d, rest = [("csbk_data", VObj c d)] /\
     In c ["DmrCsbk.BsOutboundActivationData"; "DmrCsbk.UnitToUnitVoiceRequestData"; "DmrCsbk.UnitToUnitVoiceAnswerData";
           "DmrCsbk.NegativeAckResponseData"; "DmrCsbk.PreambleData"; "DmrCsbk.ChannelTimingData"]).
Proof.
  intros b v H.
  assert (Ho : object_of T_DmrCsbk v).
  { refine (C58_objects_conform "DmrCsbk" T_DmrCsbk (fun _ => p_DmrCsbk) _ _ V010 b v H); [is_def|in_list]. }
  clear H. unfold T_DmrCsbk in Ho. inversion Ho as [path q a Ha E1 E2]. subst. clear Ho. peel.
  all: repeat match goal with H : typed _ TFlag _ |- _ => inv H | H : typed _ (TBits _) _ |- _ => inv H end.
  all: repeat match goal with H : number_or_member None _ _ _ |- _ => destruct H as [? [-> ?]] end.
  - do 6 eexists. split; [reflexivity|]. split; [match goal with H : _ = public _ |- _ => symmetry; exact H end|]. split; [assumption|]. split; [assumption|]. right.
    match goal with H : typed _ (TSwitch _ _) _ |- _ => inv H end.
    repeat match goal with H : one_of _ (CCons _ _ _) _ |- _ => inv H | H : one_of _ CNil _ |- _ => inv H end.
    all: match goal with H : typed _ (TLocal _) _ |- _ => inv H end.
    all: match goal with H : object_of ?T _ |- _ => unfold T in H; inv H end.
    all: do 2 eexists; split; [reflexivity|cbn; tauto].
  - do 6 eexists. split; [reflexivity|]. split; [match goal with H : _ = public _ |- _ => symmetry; exact H end|]. split; [assumption|]. split; [assumption|]. now left.
Qed.

(** ** A concrete case: the preamble CSBK of the repository's test *)
Example C58_case : let b := B [0xbd; 0x00; 0x80; 0x18; 0x00; 0x08; 0xfd; 0x23; 0x38; 0x3b; 0xb2; 0xed] in
  In ("DmrCsbk", (fun _ : runtime => p_DmrCsbk)) all_parsers /\ In ("DmrCsbk", T_DmrCsbk) definitions /\
  exists v, from_bytes p_DmrCsbk b = Ok v /\ object_of T_DmrCsbk v /\ inside (VEnum "DmrCsbk.CsbkoTypes" "preamble" 61) v /\
    exists d, inside (VObj "DmrCsbk.PreambleData" d) v.
Proof.
  intros b. split; [in_list|]. split; [is_def|]. eexists. split; [vm_compute; reflexivity|].
  split; [refine (C58_objects_conform "DmrCsbk" T_DmrCsbk (fun _ => p_DmrCsbk) _ _ V010 b _ _); [is_def|in_list|vm_compute; reflexivity]|].
  split.
  - eapply In_attr with (x := "csbk_opcode"); [cbn [In]; tauto|reflexivity|apply In_self].
  - eexists. eapply In_attr with (x := "csbk_data"); [cbn [In]; do 4 right; left; reflexivity|reflexivity|apply In_self].
Qed.
(** What a definition does not promise: a flag for a number, a number out of range, a missing attribute, a member of another enum. *)
Example C58_rejects : let o l := VObj "DmrData.Rate34Confirmed" l in let ok := ("user_data", VBytes (List.repeat (zb 0) 16)) in
  object_of T_DmrData_Rate34Confirmed (o [("data_block_serial_number", VInt 127); ("crc9", VInt 511); ok]) /\
  ~ object_of T_DmrData_Rate34Confirmed (o [("data_block_serial_number", VInt 128); ("crc9", VInt 511); ok]) /\
  ~ object_of T_DmrData_Rate34Confirmed (o [("data_block_serial_number", VBool true); ("crc9", VInt 511); ok]) /\
  ~ object_of T_DmrData_Rate34Confirmed (o [("crc9", VInt 511); ("data_block_serial_number", VInt 127); ok]) /\
  ~ object_of T_DmrData_Rate34Confirmed (o [("data_block_serial_number", VInt 127); ok]) /\
  ~ object_of T_DmrData_Rate34Confirmed (o [("data_block_serial_number", VInt 127); ("crc9", VInt 511); ("user_data", VBytes [])]).
Proof.
  intros o ok. subst o ok. split.
  - apply An_object. cbn [public filter is_cache String.prefix fst negb]. repeat first [apply A_nil | apply A_present]; apply R_once.
    + apply T_bits. exists 127. now repeat split.
    + apply T_bits. exists 511. now repeat split.
    + apply T_bytes. intros n E. assert (n = 16) as -> by congruence. reflexivity.
  - repeat apply conj; intros H; inversion H as [path q a Ha]; subst; clear H; cbn in Ha; peel;
    repeat match goal with H : typed _ (TBits _) _ |- _ => inv H | H : typed _ (TBytes _) _ |- _ => inv H end;
    repeat match goal with H : number_or_member None _ _ _ |- _ => let z := fresh "z" in let E := fresh "E" in destruct H as [z [E ?]]; inversion E; subst end; try (cbn in *; lia).
    match goal with H : forall n, EInt 16 = EInt n -> _ |- _ => specialize (H 16 eq_refl); discriminate H end.
Qed.

Definition C58_all := (C58_objects_conform, C58_objects_inside_conform, C58_members_are_declared, C58_csbk).
Print Assumptions C58_all.
