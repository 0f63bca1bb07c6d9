(** Properties C20 - C27 (see properties.jsonl): addresses, GPS data, the Hytera application protocols.
    Each theorem is followed by a concrete case. *)
From Verif Require Import PyBase Runtime Codec CodecSpec CodecProofs Enums Getters Spec DecSpec BitSpec RuntimeProofs TilesProofs DecProofs DecAlgebra GetterProofs HomebrewCor HyteraModel HyteraSpec HyteraRuns HyteraProofs HyteraCor HyteraCor2.
From Coq Require Import ZifyBool.
Ltac Zify.zify_post_hook ::= Z.div_mod_to_equations.
Open Scope string_scope.
Open Scope list_scope.
Open Scope Z_scope.

(** evaluate the stored integers a property reads *)
Ltac use_stored Hb := unfold bind; repeat match goal with |- context [stored_int ?x ?a ?s] => rewrite (stored_int_intact _ a x _ s Hb eq_refl eq_refl) end.

(** * C20 *)
Theorem C20_radio_ip_decoding : forall rt b,
  (forall a0 a1 a2 a3 t, b = a0 :: a1 :: a2 :: a3 :: t -> from_bytes (p_RadioIp rt) b = Ok (VObj "RadioIp"
     [("subnet", VInt (bz a0)); ("radio_id_1", VInt (bz a1)); ("radio_id_2", VInt (bz a2)); ("radio_id_3", VInt (bz a3))])) /\
  (blen b < 4 -> from_bytes (p_RadioIp rt) b = Err EOFError).
Proof.
  intros rt b. rewrite (runs_dec_from_bytes _ _ (dec_table _ _ _ _ (r_RadioIp rt 0 ltac:(lia) eq_refl) eq_refl ltac:(lia) eq_refl)).
  unfold stand_alone, table. split.
  - intros a0 a1 a2 a3 t ->. pose proof (blen_nonneg t). assert (Hl : 4 <= blen (a0 :: a1 :: a2 :: a3 :: t)) by (unfold blen in *; cbn [List.length] in *; lia).
    unfold L_RadioIp. long_fields.
    change 8 with (8 * 1) at 2. change 16 with (8 * 2). change 24 with (8 * 3). change 0 with (8 * 0) at 1. rewrite !ubits_byte by lia. reflexivity.
  - intros Hl. rewrite short_table; [reflexivity|unfold L_RadioIp; eoftable|reflexivity|pose proof (blen_nonneg b); lia|exact Hl].
Qed.
Print Assumptions C20_radio_ip_decoding.

Example C20_case : from_bytes (p_RadioIp V010) (B [10; 0x23; 0x38; 1; 0xff]) = Ok (VObj "RadioIp"
  [("subnet", VInt 10); ("radio_id_1", VInt 0x23); ("radio_id_2", VInt 0x38); ("radio_id_3", VInt 1)]).
Proof. vm_compute. reflexivity. Qed.

(** The two derived attributes of the class. *)
Definition RadioIp_property (x : string) : live -> res pyval * live :=
  if String.eqb x "radio_id" then RadioIp_radio_id
  else if String.eqb x "radio_ip" then RadioIp_radio_ip
  else no_property x.
(** In any history of accesses of any decoded address - stand-alone or part of another message, whatever
    its stream and wherever that stream is - every access gives the same, and does not move the stream. *)
Theorem C20_radio_ip_derived : forall rt a0 a1 a2 a3 o ops,
  l_attrs o = [("subnet", VInt (bz a0)); ("radio_id_1", VInt (bz a1)); ("radio_id_2", VInt (bz a2)); ("radio_id_3", VInt (bz a3))] ->
  Forall (fun ob =>
    ob_result ob = (if String.eqb (ob_name ob) "radio_id" then Ok (VInt (65536 * bz a1 + 256 * bz a2 + bz a3))
                    else if String.eqb (ob_name ob) "radio_ip" then Ok (VStr (dotted (bz a0) (bz a1) (bz a2) (bz a3)))
                    else Err (AttributeError (ob_name ob))) /\
    (forall v, ob_result ob = Ok v -> ob_after ob = ob_before ob))
  (history rt RadioIp_property ops o).
Proof.
  intros rt a0 a1 a2 a3 o ops Ha.
  set (val := fun x => if String.eqb x "radio_id" then Ok (VInt (65536 * bz a1 + 256 * bz a2 + bz a3))
                    else if String.eqb x "radio_ip" then Ok (VStr (dotted (bz a0) (bz a1) (bz a2) (bz a3))) else Err (AttributeError x)).
  refine (derived_history rt _ val _ o ops Ha eq_refl _).
  assert (V1 : val "radio_id" = Ok (VInt (65536 * bz a1 + 256 * bz a2 + bz a3))) by reflexivity.
  assert (V2 : val "radio_ip" = Ok (VStr (dotted (bz a0) (bz a1) (bz a2) (bz a3)))) by reflexivity.
  assert (V3 : forall x, x <> "radio_id" -> x <> "radio_ip" -> val x = Err (AttributeError x)).
  { intros x N1 N2. unfold val. destruct (String.eqb_spec x "radio_id"); [contradiction|]. destruct (String.eqb_spec x "radio_ip"); [contradiction|reflexivity]. }
  clearbody val.
  intros x o' Ho. unfold RadioIp_property. destruct (String.eqb_spec x "radio_id") as [->|N1]; [|destruct (String.eqb_spec x "radio_ip") as [->|N2]].
  - unfold RadioIp_radio_id. apply (pure_property _ _ val "radio_id"); [|exact Ho]. intros a s Hb. unfold bind. use_stored Hb.
    rewrite V1. unfold ret. do 3 f_equal. rewrite !Z.shiftl_mul_pow2 by lia. lia.
  - unfold RadioIp_radio_ip. apply (pure_property _ _ val "radio_ip"); [|exact Ho]. intros a s Hb. unfold bind. use_stored Hb.
    rewrite V2. unfold ret. rewrite !py_str_dec by (apply bz_range). reflexivity.
  - apply (no_property_intact _ _ _ x o'); [|exact Ho]. apply V3; assumption.
Qed.
Print Assumptions C20_radio_ip_derived.
Example C20_case_history : exists o, open_object (p_RadioIp V011) (B [10; 0x23; 0x38; 1]) = Ok o /\
  map (fun ob => (ob_name ob, ob_result ob)) (history V011 RadioIp_property [Get "radio_ip"; Seek 1; Get "radio_id"; Get "radio_ip"] o) =
  [("radio_ip", Ok (VStr (lit "10.35.56.1"))); ("radio_id", Ok (VInt 2308097)); ("radio_ip", Ok (VStr (lit "10.35.56.1")))].
Proof. eexists. split; [vm_compute; reflexivity|]. vm_compute. reflexivity. Qed.

(** No two addresses have the same dotted string or the same (subnet, radio_id); radio_id is a 24-bit number. *)
Theorem C20_dotted_injective : forall a0 a1 a2 a3 c0 c1 c2 c3 : byte,
  dotted (bz a0) (bz a1) (bz a2) (bz a3) = dotted (bz c0) (bz c1) (bz c2) (bz c3) -> [a0; a1; a2; a3] = [c0; c1; c2; c3].
Proof.
  intros a0 a1 a2 a3 c0 c1 c2 c3 E. apply dotted_inj in E; try apply bz_range. destruct E as [E0 [E1 [E2 E3]]].
  apply bz_inj in E0, E1, E2, E3. congruence.
Qed.
Print Assumptions C20_dotted_injective.
Theorem C20_radio_id_determines : forall a1 a2 a3 c1 c2 c3 : byte,
  0 <= 65536 * bz a1 + 256 * bz a2 + bz a3 < 2 ^ 24 /\
  (65536 * bz a1 + 256 * bz a2 + bz a3 = 65536 * bz c1 + 256 * bz c2 + bz c3 -> [a1; a2; a3] = [c1; c2; c3]).
Proof.
  intros. pose proof (bz_range a1). pose proof (bz_range a2). pose proof (bz_range a3). pose proof (bz_range c1). pose proof (bz_range c2). pose proof (bz_range c3).
  change (2 ^ 24) with 16777216. split; [lia|]. intros E. assert (bz a1 = bz c1) as E1 by lia. assert (bz a2 = bz c2) as E2 by lia. assert (bz a3 = bz c3) as E3 by lia.
  apply bz_inj in E1, E2, E3. congruence.
Qed.
Print Assumptions C20_radio_id_determines.

(** * C21 *)
Definition RadioId_property (x : string) : live -> res pyval * live := if String.eqb x "radio_id" then RadioId_radio_id else no_property x.
Theorem C21_radio_id_decoding : forall rt b,
  (forall a0 a1 a2 a3 t, b = a0 :: a1 :: a2 :: a3 :: t -> from_bytes (p_RadioId rt) b = Ok (VObj "RadioId"
     [("radio_id_raw", VInt (bz a0 + 256 * bz a1 + 65536 * bz a2 + 16777216 * bz a3))])) /\
  (blen b < 4 -> from_bytes (p_RadioId rt) b = Err EOFError).
Proof.
  intros rt b. rewrite (runs_dec_from_bytes _ _ (dec_table _ _ _ _ (r_RadioId rt 0 ltac:(lia) eq_refl) eq_refl ltac:(lia) eq_refl)).
  unfold stand_alone, table. split.
  - intros a0 a1 a2 a3 t ->. pose proof (blen_nonneg t). assert (Hl : 4 <= blen (a0 :: a1 :: a2 :: a3 :: t)) by (unfold blen in *; cbn [List.length] in *; lia).
    unfold L_RadioId. long_fields. Transparent slice. unfold slice. Opaque slice.
    change (firstn (Z.to_nat 4) (skipn (Z.to_nat 0) (a0 :: a1 :: a2 :: a3 :: t))) with [a0; a1; a2; a3]. cbn [le_num fold_right]. do 5 f_equal. lia.
  - intros Hl. rewrite short_table; [reflexivity|unfold L_RadioId; eoftable|reflexivity|pose proof (blen_nonneg b); lia|exact Hl].
Qed.
Print Assumptions C21_radio_id_decoding.
Theorem C21_radio_id_derived : forall rt a0 a1 a2 a3 o ops,
  l_attrs o = [("radio_id_raw", VInt (bz a0 + 256 * bz a1 + 65536 * bz a2 + 16777216 * bz a3))] ->
  Forall (fun ob =>
    ob_result ob = (if String.eqb (ob_name ob) "radio_id" then Ok (VInt (bz a1 + 256 * bz a2 + 65536 * bz a3)) else Err (AttributeError (ob_name ob))) /\
    (forall v, ob_result ob = Ok v -> ob_after ob = ob_before ob))
  (history rt RadioId_property ops o).
Proof.
  intros rt a0 a1 a2 a3 o ops Ha.
  set (val := fun x => if String.eqb x "radio_id" then Ok (VInt (bz a1 + 256 * bz a2 + 65536 * bz a3)) else Err (AttributeError x)).
  refine (derived_history rt _ val _ o ops Ha eq_refl _).
  assert (V1 : val "radio_id" = Ok (VInt (bz a1 + 256 * bz a2 + 65536 * bz a3))) by reflexivity.
  assert (V3 : forall x, x <> "radio_id" -> val x = Err (AttributeError x)).
  { intros x N1. unfold val. destruct (String.eqb_spec x "radio_id"); [contradiction|reflexivity]. }
  clearbody val.
  intros x o' Ho. unfold RadioId_property. destruct (String.eqb_spec x "radio_id") as [->|N1].
  - unfold RadioId_radio_id. apply (pure_property _ _ val "radio_id"); [|exact Ho]. intros a s Hb. unfold bind. use_stored Hb.
    rewrite V1. unfold ret. do 3 f_equal. rewrite Z.shiftr_div_pow2 by lia. change (2 ^ 8) with 256. pose proof (bz_range a0). lia.
  - apply (no_property_intact _ _ _ x o'); [|exact Ho]. apply V3; assumption.
Qed.
Print Assumptions C21_radio_id_derived.
Theorem C21_radio_id_range : forall a1 a2 a3 c1 c2 c3 : byte, 0 <= bz a1 + 256 * bz a2 + 65536 * bz a3 < 2 ^ 24 /\
  (bz a1 + 256 * bz a2 + 65536 * bz a3 = bz c1 + 256 * bz c2 + 65536 * bz c3 -> [a1; a2; a3] = [c1; c2; c3]).
Proof.
  intros. pose proof (bz_range a1). pose proof (bz_range a2). pose proof (bz_range a3). pose proof (bz_range c1). pose proof (bz_range c2). pose proof (bz_range c3).
  change (2 ^ 24) with 16777216. split; [lia|]. intros E. assert (bz a1 = bz c1) as E1 by lia. assert (bz a2 = bz c2) as E2 by lia. assert (bz a3 = bz c3) as E3 by lia.
  apply bz_inj in E1, E2, E3. congruence.
Qed.
Print Assumptions C21_radio_id_range.
Example C21_case : exists o, open_object (p_RadioId V011) (B [0; 0x01; 0x38; 0x23]) = Ok o /\
  map ob_result (history V011 RadioId_property [Get "radio_id"; Get "radio_id"] o) = [Ok (VInt 2308097); Ok (VInt 2308097)].
Proof. eexists. split; [vm_compute; reflexivity|]. vm_compute. reflexivity. Qed.

(** * C22 *)
(** every buffer of at least 40 bytes has the form of the first case *)
Theorem C22_gpsdata_decoding : forall rt b,
  (forall status time date ns lat ew lon speed dir t, b = status ++ time ++ date ++ ns ++ lat ++ ew ++ lon ++ speed ++ dir ++ t ->
     map blen [status; time; date; ns; lat; ew; lon; speed; dir] = [1; 6; 6; 1; 9; 1; 10; 3; 3] ->
     from_bytes (p_Gpsdata rt) b = Ok (VObj "Gpsdata" [("gps_status", VBytes status); ("gps_time", VBytes time); ("gps_date", VBytes date); ("north_south", VBytes ns);
       ("latitude", VBytes lat); ("east_west", VBytes ew); ("longitude", VBytes lon); ("speed", VBytes speed); ("direction", VBytes dir)])) /\
  (blen b < 40 -> from_bytes (p_Gpsdata rt) b = Err EOFError).
Proof.
  intros rt b. rewrite (runs_dec_from_bytes _ _ (dec_table _ _ _ _ (r_Gpsdata rt 0 ltac:(lia) eq_refl) eq_refl ltac:(lia) eq_refl)).
  unfold stand_alone, table. split.
  - intros x1 x2 x3 x4 x5 x6 x7 x8 x9 t -> Hl. cbn [map] in Hl.
    assert (H1 : blen x1 = 1) by congruence. assert (H2 : blen x2 = 6) by congruence. assert (H3 : blen x3 = 6) by congruence. assert (H4 : blen x4 = 1) by congruence. assert (H5 : blen x5 = 9) by congruence.
    assert (H6 : blen x6 = 1) by congruence. assert (H7 : blen x7 = 10) by congruence. assert (H8 : blen x8 = 3) by congruence. assert (H9 : blen x9 = 3) by congruence. clear Hl.
    pose proof (blen_nonneg t). set (b := x1 ++ _). assert (Hl : 40 <= blen b) by (unfold b; rewrite !blen_app; lia).
    unfold L_Gpsdata. long_fields.
    assert (S : forall p n x y z, b = x ++ y ++ z -> blen x = p -> blen y = n -> slice b p n = y).
    { intros p n x y z -> <- <-. apply slice_mid. }
    rewrite (S 0 1 [] x1 _ eq_refl eq_refl H1).
    rewrite (S 1 6 x1 x2 _ eq_refl H1 H2).
    rewrite (S 7 6 (x1 ++ x2) x3 (x4 ++ x5 ++ x6 ++ x7 ++ x8 ++ x9 ++ t)); [|unfold b; rewrite !app_assoc; reflexivity|rewrite ?blen_app; lia|assumption].
    rewrite (S 13 1 (x1 ++ x2 ++ x3) x4 (x5 ++ x6 ++ x7 ++ x8 ++ x9 ++ t)); [|unfold b; rewrite !app_assoc; reflexivity|rewrite ?blen_app; lia|assumption].
    rewrite (S 14 9 (x1 ++ x2 ++ x3 ++ x4) x5 (x6 ++ x7 ++ x8 ++ x9 ++ t)); [|unfold b; rewrite !app_assoc; reflexivity|rewrite ?blen_app; lia|assumption].
    rewrite (S 23 1 (x1 ++ x2 ++ x3 ++ x4 ++ x5) x6 (x7 ++ x8 ++ x9 ++ t)); [|unfold b; rewrite !app_assoc; reflexivity|rewrite ?blen_app; lia|assumption].
    rewrite (S 24 10 (x1 ++ x2 ++ x3 ++ x4 ++ x5 ++ x6) x7 (x8 ++ x9 ++ t)); [|unfold b; rewrite !app_assoc; reflexivity|rewrite ?blen_app; lia|assumption].
    rewrite (S 34 3 (x1 ++ x2 ++ x3 ++ x4 ++ x5 ++ x6 ++ x7) x8 (x9 ++ t)); [|unfold b; rewrite !app_assoc; reflexivity|rewrite ?blen_app; lia|assumption].
    rewrite (S 37 3 (x1 ++ x2 ++ x3 ++ x4 ++ x5 ++ x6 ++ x7 ++ x8) x9 t); [|unfold b; rewrite !app_assoc; reflexivity|rewrite ?blen_app; lia|assumption].
    reflexivity.
  - intros Hl. rewrite short_table; [reflexivity|unfold L_Gpsdata; eoftable|reflexivity|pose proof (blen_nonneg b); lia|exact Hl].
Qed.
Print Assumptions C22_gpsdata_decoding.

(** every buffer of at least 40 bytes has that form *)
Theorem C22_split : forall b, 40 <= blen b -> exists status time date ns lat ew lon speed dir t,
  b = status ++ time ++ date ++ ns ++ lat ++ ew ++ lon ++ speed ++ dir ++ t /\
  map blen [status; time; date; ns; lat; ew; lon; speed; dir] = [1; 6; 6; 1; 9; 1; 10; 3; 3].
Proof.
  assert (S : forall n b m, 0 <= n -> 0 <= m -> n + m <= blen b -> exists x y, b = x ++ y /\ blen x = n /\ m <= blen y).
  { intros n b m Hn Hm Hb. exists (firstn (Z.to_nat n) b), (skipn (Z.to_nat n) b). rewrite firstn_skipn. split; [reflexivity|].
    unfold blen in *. rewrite firstn_length, skipn_length. lia. }
  intros b Hb.
  destruct (S 1 b 39) as [x1 [b1 [-> [H1 L1]]]]; [lia..|]. destruct (S 6 b1 33) as [x2 [b2 [-> [H2 L2]]]]; [lia..|].
  destruct (S 6 b2 27) as [x3 [b3 [-> [H3 L3]]]]; [lia..|]. destruct (S 1 b3 26) as [x4 [b4 [-> [H4 L4]]]]; [lia..|].
  destruct (S 9 b4 17) as [x5 [b5 [-> [H5 L5]]]]; [lia..|]. destruct (S 1 b5 16) as [x6 [b6 [-> [H6 L6]]]]; [lia..|].
  destruct (S 10 b6 6) as [x7 [b7 [-> [H7 L7]]]]; [lia..|]. destruct (S 3 b7 3) as [x8 [b8 [-> [H8 L8]]]]; [lia..|].
  destruct (S 3 b8 0) as [x9 [b9 [-> [H9 L9]]]]; [lia..|].
  exists x1, x2, x3, x4, x5, x6, x7, x8, x9, b9. split; [reflexivity|]. cbn [map]. congruence.
Qed.
Print Assumptions C22_split.
Definition Gpsdata_property (x : string) : live -> res pyval * live := if String.eqb x "gps_available" then Gpsdata_gps_available else no_property x.
Theorem C22_gps_available : forall rt o ops st time date ns lat ew lon speed dir,
  l_attrs o = [("gps_status", VBytes [st]); ("gps_time", time); ("gps_date", date); ("north_south", ns); ("latitude", lat); ("east_west", ew); ("longitude", lon); ("speed", speed); ("direction", dir)] ->
  Forall (fun ob =>
    ob_result ob = (if String.eqb (ob_name ob) "gps_available"
                    then if bz st <? 128 then Ok (VBool (bz st =? 0x41)) else Err (UnicodeDecodeError "ascii")
                    else Err (AttributeError (ob_name ob))) /\
    (forall v, ob_result ob = Ok v -> ob_after ob = ob_before ob))
  (history rt Gpsdata_property ops o).
Proof.
  intros rt o ops st time date ns lat ew lon speed dir Ha.
  set (val := fun x => if String.eqb x "gps_available" then if bz st <? 128 then Ok (VBool (bz st =? 0x41)) else Err (UnicodeDecodeError "ascii") else Err (AttributeError x)).
  refine (derived_history rt _ val _ o ops Ha eq_refl _).
  assert (V1 : val "gps_available" = if bz st <? 128 then Ok (VBool (bz st =? 0x41)) else Err (UnicodeDecodeError "ascii")) by reflexivity.
  assert (V3 : forall x, x <> "gps_available" -> val x = Err (AttributeError x)).
  { intros x N1. unfold val. destruct (String.eqb_spec x "gps_available"); [contradiction|reflexivity]. }
  clearbody val.
  intros x o' Ho. unfold Gpsdata_property. destruct (String.eqb_spec x "gps_available") as [->|N1].
  - unfold Gpsdata_gps_available. apply (pure_property _ _ val "gps_available"); [|exact Ho]. intros a s Hb. unfold bind.
    rewrite (stored_intact _ a "gps_status" _ s Hb eq_refl eq_refl). rewrite V1. unfold lift, py_decode, decode_text. cbn [dec_ascii option_map enc_name].
    destruct (bz st <? 128); cbn [option_map]; [|reflexivity]. unfold ret. do 3 f_equal. unfold str_eqb. change (lit "A") with [65]. cbn [zlist_eqb]. apply andb_true_r.
  - apply (no_property_intact _ _ _ x o'); [|exact Ho]. apply V3; assumption.
Qed.
Print Assumptions C22_gps_available.
Example C22_case : exists o, open_object (p_Gpsdata V010) (blit "A113355091020N5001.1234E01401.1234012123") = Ok o /\
  lookup "latitude" (l_attrs o) = Some (VBytes (blit "5001.1234")) /\
  map ob_result (history V010 Gpsdata_property [Get "gps_available"; Get "speedy"; Get "gps_available"] o) = [Ok (VBool true); Err (AttributeError "speedy"); Ok (VBool true)].
Proof. eexists. split; [vm_compute; reflexivity|]. vm_compute. repeat split; reflexivity. Qed.

(** the rest of a table on a packet that is too short, the first [c] bits being read *)
Ltac short_tail c :=
  match goal with |- context [fields ?b ?k ?fs] =>
    let n := eval vm_compute in (fs_end fs c) in
    let H := fresh in assert (H : match fields b k fs with Ok _ => fits b k n = true | Err e => e = EOFError /\ fits b k n = false end);
    [change n with (fs_end fs c); apply fields_eof_only; [eoftable|reflexivity|reflexivity|lia|apply fits_iff; lia]
    |destruct (fields b k fs); [apply fits_iff in H; lia|destruct H as [-> _]; reflexivity]] end.

(** * C23 *)
(** bytes needed by a message of the given type *)
Definition rrs_size (ty : Z) : Z := if ty =? 0x80 then 13 else if ty =? 0x82 then 9 else 8.
Theorem C23_registration : forall rt b,
  let ty := ubits b 8 8 in
  from_bytes (p_RadioRegistrationService rt) b =
    if blen b <? 1 then Err EOFError
    else if negb (ubits b 0 8 =? 0) then Err (ValidationNotEqualError (VBytes (B [0])) (VBytes (slice b 0 1)) "/seq/0")
    else if blen b <? rrs_size ty then Err EOFError
    else Ok (VObj "RadioRegistrationService" (
      [("opcode", VBytes (B [0])); ("rrs_type", resolve_enum RadioRegistrationService_RrsTypes ty); ("message_length", VInt (ubits b 16 16));
       ("radio_ip", radio_ip_at b 4)] ++
      (if (ty =? 0x80) || (ty =? 0x82) then [("result", VInt (ubits b 64 8))] else []) ++
      (if ty =? 0x80 then [("valid_time", VInt (ubits b 72 32))] else []))).
Proof.
  intros rt b ty. rewrite (runs_dec_from_bytes _ _ (d_rrs rt)). unfold stand_alone, rrs_at, table. cbn [Z.mul Z.add]. fold ty.
  pose proof (blen_nonneg b) as Hb0.
  destruct (Z.ltb_spec (blen b) 1) as [L1|L1].
  { unfold rrs_table. cbn [app]. spec_cbn. change (blen (B [0])) with 1. norm_lits. rewrite (proj2 (fits_niff b 0 8)) by lia. reflexivity. }
  assert (S0 : slice b 0 1 = [zb (ubits b 0 8)]).
  { destruct b as [|x b]; [unfold blen in L1; cbn in L1; lia|]. change (ubits (x :: b) 0 8) with (ubits (x :: b) (8 * 0) 8). rewrite ubits_byte by lia.
    cbn [Z.to_nat nth]. rewrite zb_bz. reflexivity. }
  destruct (Z.eqb_spec (ubits b 0 8) 0) as [M|M]; cbn [negb].
  2: { unfold rrs_table. cbn [app]. spec_cbn. change (blen (B [0])) with 1. norm_lits. rewrite (proj2 (fits_iff b 0 8)) by lia. change (blen (B [0])) with 1. cbn zeta.
       destruct (bytes_eqb (slice b 0 1) (B [0])) eqn:E; [|reflexivity]. apply bytes_eqb_true in E. rewrite S0 in E. exfalso. apply M.
       pose proof (ubits_bound b 0 8 ltac:(lia)). assert (E' : zb (ubits b 0 8) = zb 0) by (change (B [0]) with [zb 0] in E; congruence). apply (f_equal bz) in E'. rewrite !bz_zb in E' by lia. exact E'. }
  assert (D : forall fs, fields b 0 (F "opcode" 0 (KMagic (B [0]) "/seq/0") :: fs) = let* a := fields b 0 fs in Ok (("opcode", VBytes (B [0])) :: a)).
  { intros fs. spec_cbn. change (blen (B [0])) with 1. norm_lits. rewrite (proj2 (fits_iff b 0 8)) by lia. change (blen (B [0])) with 1. cbn zeta. rewrite S0, M. change (bytes_eqb [zb 0] (B [0])) with true. cbn iota. reflexivity. }
  unfold rrs_table, rrs_size. destruct (ty =? 0x80); [|destruct (ty =? 0x82)]; cbn [app orb]; rewrite D.
  all: match goal with |- context [blen ?b <? ?n] => destruct (Z.ltb_spec (blen b) n) end.
  1,3,5: short_tail 8.
  all: long_fields; reflexivity.
Qed.
Print Assumptions C23_registration.
Example C23_case : from_bytes (p_RadioRegistrationService V010) (B [0; 0x80; 0; 9; 10; 0; 0; 1; 0; 0; 0; 0; 60; 7]) = Ok (VObj "RadioRegistrationService"
  [("opcode", VBytes (B [0])); ("rrs_type", VEnum "RadioRegistrationService.RrsTypes" "registration_ack" 0x80); ("message_length", VInt 9);
   ("radio_ip", VObj "RadioIp" [("subnet", VInt 10); ("radio_id_1", VInt 0); ("radio_id_2", VInt 0); ("radio_id_3", VInt 1)]); ("result", VInt 0); ("valid_time", VInt 60)]).
Proof. vm_compute. reflexivity. Qed.

(** * C24 *)
Theorem C24_delivery_states : forall rt b,
  from_bytes (p_DataDeliveryStates rt) b =
    if blen b <? 11 then Err EOFError
    else Ok (VObj "DataDeliveryStates" [("reserved", VBytes (slice b 0 1)); ("state_type", resolve_enum DataDeliveryStates_StateTypes (ubits b 8 8));
      ("message_length", VInt (ubits b 16 16)); ("radio_ip", radio_ip_at b 4); ("protocol_opcode", VInt (ubits b 64 16));
      ("result", resolve_enum DataDeliveryStates_Results (ubits b 80 8))]).
Proof.
  intros rt b. rewrite (runs_dec_from_bytes _ _ (d_dds rt)). unfold stand_alone, dds_at, table, L_DataDeliveryStates. pose proof (blen_nonneg b) as Hb.
  destruct (Z.ltb_spec (blen b) 11); [short_tail 0|]. long_fields. reflexivity.
Qed.
Print Assumptions C24_delivery_states.
Example C24_case : from_bytes (p_DataDeliveryStates V010) (B [0; 0x77; 0; 9; 10; 0; 0; 1; 0x80; 0xa1; 99]) = Ok (VObj "DataDeliveryStates"
  [("reserved", VBytes (B [0])); ("state_type", VInt 0x77); ("message_length", VInt 9);
   ("radio_ip", VObj "RadioIp" [("subnet", VInt 10); ("radio_id_1", VInt 0); ("radio_id_2", VInt 0); ("radio_id_3", VInt 1)]); ("protocol_opcode", VInt 0x80a1); ("result", VInt 99)]).
Proof. vm_compute. reflexivity. Qed.

(** * C25 *)
(** the body at byte 4, per subtype *)
Definition dtp_body (b : bytes) (subtype message_length : Z) : res attrs :=
  let addresses := [("destination_ip", radio_ip_at b 4); ("source_ip", radio_ip_at b 8)] in
  let number := VInt (ubits b 96 16) in
  let body cls fs := [("data", VObj ("DataTransmitProtocol." ++ cls) (addresses ++ fs))] in
  if (subtype =? 0x01) || (subtype =? 0x02) then
    if blen b <? 14 then Err EOFError
    else if message_length <? 10 then Err ValueError
    else if blen b <? 4 + message_length then Err EOFError
    else let file := slice b 14 (message_length - 10) in
      if subtype =? 0x02 then Ok (body "DataSliceTransmit" [("block_number", number); ("file_data", VBytes file)])
      else match decode_text UTF16LE file with
           | Some name => Ok (body "DtpRequest" [("file_size", number); ("file_name", VStr name)])
           | None => Err (UnicodeDecodeError (enc_name UTF16LE))
           end
  else if subtype =? 0x11 then
    if blen b <? 13 then Err EOFError else Ok (body "DtpAnswer" [("result", resolve_enum DataTransmitProtocol_Results (ubits b 96 8))])
  else if subtype =? 0x12 then
    if blen b <? 15 then Err EOFError else Ok (body "DataSliceAnswer" [("block_number", number); ("result", resolve_enum DataTransmitProtocol_Results (ubits b 112 8))])
  else if subtype =? 0x03 then
    if blen b <? 12 then Err EOFError else Ok (body "LastDataSlice" [])
  else if subtype =? 0x13 then
    if blen b <? 13 then Err EOFError else Ok (body "LastDataSliceAnswer" [("result", resolve_enum DataTransmitProtocol_Results (ubits b 96 8))])
  else Ok [].
Theorem C25_data_transmit : forall rt b,
  from_bytes (p_DataTransmitProtocol rt) b =
    if blen b <? 4 then Err EOFError
    else let* d := dtp_body b (ubits b 8 8) (ubits b 16 16) in
      Ok (VObj "DataTransmitProtocol" ([("service_type", resolve_enum DataTransmitProtocol_ServiceTypes (ubits b 0 8));
        ("service_specific_type", resolve_enum DataTransmitProtocol_ServiceSpecificTypes (ubits b 8 8)); ("message_length", VInt (ubits b 16 16))] ++ d)).
Proof.
  intros rt b. rewrite (runs_dec_from_bytes _ _ (d_dtp rt)). unfold stand_alone, dtp_at. pose proof (blen_nonneg b) as Hb.
  destruct (Z.ltb_spec (blen b) 4); [unfold L_DataTransmitProtocol; short_tail 0|]. unfold L_DataTransmitProtocol at 1. long_fields.
  pose proof (ubits_bound b 16 16 ltac:(lia)) as Hm. set (ml := ubits b 16 16) in *. set (ty := ubits b 8 8). clearbody ty ml.
  unfold dtp_body. cbv zeta.
  destruct (Z.eqb_spec ty 1) as [->|N1]; [|destruct (Z.eqb_spec ty 2) as [->|N2]; [|destruct (Z.eqb_spec ty 0x11) as [->|N3]; [|destruct (Z.eqb_spec ty 0x12) as [->|N4];
    [|destruct (Z.eqb_spec ty 3) as [->|N5]; [|destruct (Z.eqb_spec ty 0x13) as [->|N6]]]]]].
  7: { unfold dtp_bodies. cbn [select]. rewrite !(proj2 (Z.eqb_neq _ _)) by assumption. reflexivity. }
  all: unfold dtp_bodies; cbn [select Z.eqb Pos.eqb part orb]; unfold dtp_request, dtp_slice, table.
  all: match goal with |- context [blen ?b <? ?n] => destruct (Z.ltb_spec (blen b) n) end.
  1,3,5,7,9,11: unfold L_dtp_numbered, L_DataTransmitProtocol_DtpAnswer, L_DataTransmitProtocol_DataSliceAnswer, L_DataTransmitProtocol_LastDataSlice, L_DataTransmitProtocol_LastDataSliceAnswer; short_tail 0.
  3-6: unfold L_DataTransmitProtocol_DtpAnswer, L_DataTransmitProtocol_DataSliceAnswer, L_DataTransmitProtocol_LastDataSlice, L_DataTransmitProtocol_LastDataSliceAnswer; long_fields; reflexivity.
  all: unfold L_dtp_numbered; long_fields; unfold text_at, bytes_at; norm_lits.
  all: match goal with |- context [?m - 10 <? 0] => destruct (Z.ltb_spec m 10); destruct (Z.ltb_spec (m - 10) 0); try lia; try reflexivity end.
  all: match goal with |- context [?x <=? blen ?b] => match goal with |- context [blen b <? ?y] => destruct (Z.leb_spec x (blen b)); destruct (Z.ltb_spec (blen b) y); try lia; try reflexivity end end.
  cbn [rbind]. destruct (decode_text _ _); reflexivity.
Qed.
Print Assumptions C25_data_transmit.
Example C25_case : exists v, from_bytes (p_DataTransmitProtocol V011) (B [9; 1; 0; 14; 10; 0; 0; 1; 10; 0; 0; 2; 1; 0; 0x61; 0; 0x62; 0; 0x77]) = Ok v /\
  option_map (getattr "file_name") (getattr "data" v) = Some (Some (VStr (lit "ab"))) /\ option_map (getattr "file_size") (getattr "data" v) = Some (Some (VInt 256)).
Proof. eexists. split; [vm_compute; reflexivity|]. vm_compute. repeat split; reflexivity. Qed.
Example C25_case_short : from_bytes (p_DataTransmitProtocol V011) (B [9; 1; 0; 9; 10; 0; 0; 1; 10; 0; 0; 2; 1; 0]) = Err ValueError.
Proof. vm_compute. reflexivity. Qed.

(** * C26 *)
(** The text of [n] bytes from byte [p] on. *)
Definition utf16_text (b : bytes) (p n : Z) : res pyval :=
  if n <? 0 then Err ValueError
  else if blen b <? p + n then Err EOFError
  else match decode_text UTF16LE (slice b p n) with
       | Some s => Ok (VStr s)
       | None => Err (UnicodeDecodeError (enc_name UTF16LE))
       end.
Theorem C26_text_message : forall rt b,
  let opt := bit b 1 in
  let ty := ubits b 8 8 in
  let message := (ty =? 0xA1) || (ty =? 0xB1) in
  let ack := (ty =? 0xA2) || (ty =? 0xB2) in
  let group_ack := ty =? 0xB2 in
  let message_length := ubits b 16 16 in
  let option_len := ubits b 32 16 in
  let o := if opt then 6 else 4 in                                            (* where the request id is *)
  let r := if group_ack then o + 8 else o + 12 in                             (* where the result of an ack is *)
  let p := if ack then r + 1 else r in                                        (* where the text is *)
  let option_total := if opt then option_len + 2 else 0 in
  let text_len := message_length - 12 - option_total in
  let q := if message then p + text_len else p in                             (* where the option is *)
  from_bytes (p_TextMessageProtocol rt) b =
    if (blen b <? 2) || (blen b <? p) then Err EOFError
    else
      let* t := if message then let* x := utf16_text b p text_len in Ok [("_m_option_sum_len", VInt option_total); ("tmdata", x)] else Ok [] in
      let* f := if opt then let* x := utf16_text b q option_len in Ok [("option_field", x)] else Ok [] in
      Ok (VObj "TextMessageProtocol" (
        [("ack_flag", resolve_enum TextMessageProtocol_AckFlags (ubits b 0 1)); ("option_flag", resolve_enum TextMessageProtocol_OptionFlags (ubits b 1 1));
         ("reserved", VInt (ubits b 2 6)); ("service_type", resolve_enum TextMessageProtocol_ServiceTypes ty); ("message_length", VInt message_length)] ++
        (if opt then [("option_field_len", VInt option_len)] else []) ++
        [("request_id", VInt (ubits b (8 * o) 32)); ("destination_ip", radio_ip_at b (o + 4))] ++
        (if group_ack then [] else [("source_ip", radio_ip_at b (o + 8))]) ++
        (if ack then [("result", resolve_enum TextMessageProtocol_ResultCodes (ubits b (8 * r) 8))] else []) ++ t ++ f)).
Proof.
  intros rt b opt ty message ack group_ack ml ol. rewrite (runs_dec_from_bytes _ _ (d_tmp rt)). unfold stand_alone, tmp_at. cbn [Z.mul Z.add]. fold opt ty ml ol. cbv zeta.
  assert (T : forall p n, text_at UTF16LE b p n = utf16_text b p n).
  { intros p n. unfold text_at, bytes_at, utf16_text. destruct (n <? 0); [reflexivity|]. destruct (Z.leb_spec (p + n) (blen b)); destruct (Z.ltb_spec (blen b) (p + n)); try lia; reflexivity. }
  pose proof (blen_nonneg b) as Hb.
  assert (C : ty = 0xA1 \/ ty = 0xB1 \/ ty = 0xA2 \/ ty = 0xB2 \/ (ty <> 0xA1 /\ ty <> 0xB1 /\ ty <> 0xA2 /\ ty <> 0xB2)) by lia.
  unfold message, ack, group_ack. clear message ack group_ack.
  assert (Ety : ubits b 8 8 = ty) by reflexivity. assert (Eml : ubits b 16 16 = ml) by reflexivity. assert (Eol : ubits b 32 16 = ol) by reflexivity. clearbody opt ml ol ty.
  set (txt := utf16_text b) in *. clearbody txt.
  destruct C as [->|[->|[->|[->|[N1 [N2 [N3 N4]]]]]]].
  5: rewrite !(proj2 (Z.eqb_neq ty _)) by assumption.
  all: destruct opt.
  all: unfold tmp_fixed; rewrite ?(proj2 (Z.eqb_neq ty _)) by assumption; cbn [app Z.eqb Pos.eqb orb].
  all: norm_lits; match goal with |- context [blen ?b <? 2] => match goal with |- context [(blen b <? 2) || (blen b <? ?n)] =>
     destruct (Z.ltb_spec (blen b) n); [rewrite orb_true_r; short_tail 0|destruct (Z.ltb_spec (blen b) 2); [lia|]; cbn [orb]] end end.
  all: long_fields; rewrite ?Ety, ?Eml, ?Eol.
  all: repeat match goal with |- context [fs_end ?fs 0 / 8] => let n := eval vm_compute in (fs_end fs 0 / 8) in change (fs_end fs 0 / 8) with n end.
  all: cbn [rbind fst snd]; match goal with T : forall p n, text_at _ _ p n = ?txt p n |- _ =>
    rewrite ?T; repeat (match goal with |- context [txt ?p ?n] => destruct (txt p n); cbn [rbind rmap fst snd app]; rewrite ?T end) end; try reflexivity.
  all: match goal with |- ?g => idtac g end.
Qed.
Print Assumptions C26_text_message.
(** which attributes a decoded message has *)
Theorem C26_presence : forall rt b v, from_bytes (p_TextMessageProtocol rt) b = Ok v ->
  let has n := match getattr n v with Some _ => true | None => false end in
  let ty := ubits b 8 8 in
  has "option_field" = bit b 1 /\ has "option_field_len" = bit b 1 /\
  has "source_ip" = negb (ty =? 0xB2) /\ has "result" = ((ty =? 0xA2) || (ty =? 0xB2)) /\ has "tmdata" = ((ty =? 0xA1) || (ty =? 0xB1)) /\
  has "destination_ip" = true /\ has "request_id" = true.
Proof.
  intros rt b v H. rewrite C26_text_message in H. cbv zeta in H. set (ty := ubits b 8 8) in *.
  destruct (_ || _) in H; [discriminate|].
  match type of H with (rbind ?x _) = _ => destruct x as [t|] eqn:Ht; [|discriminate] end. cbn [rbind] in H.
  match type of H with (rbind ?x _) = _ => destruct x as [f|] eqn:Hf; [|discriminate] end. cbn [rbind] in H.
  assert (Hv : Ok v = @Ok pyval v) by reflexivity. rewrite <- H in Hv at 1. clear H. apply (f_equal (fun r => match r with Ok x => x | Err _ => VNone end)) in Hv. subst v.
  assert (Lt : forall n, n <> "_m_option_sum_len" -> n <> "tmdata" -> forall l, lookup n (t ++ l) = lookup n l).
  { intros n N1 N2 l. destruct ((ty =? 161) || (ty =? 177)); [|inversion Ht; subst; reflexivity].
    match type of Ht with (rbind ?x _) = _ => destruct x; inversion Ht; subst end. cbn [app lookup]. rewrite !(proj2 (String.eqb_neq n _)) by assumption. reflexivity. }
  assert (Tt : match lookup "tmdata" (t ++ f) with Some _ => true | None => false end = ((ty =? 0xA1) || (ty =? 0xB1))).
  { destruct ((ty =? 161) || (ty =? 177)).
    - match type of Ht with (rbind ?x _) = _ => destruct x; inversion Ht; subst end. reflexivity.
    - inversion Ht; subst. cbn [app]. destruct (bit b 1); [|inversion Hf; reflexivity]. match type of Hf with (rbind ?x _) = _ => destruct x; inversion Hf; subst end. reflexivity. }
  assert (Lf : forall n, n <> "option_field" -> lookup n f = None).
  { intros n N1. destruct (bit b 1); [|inversion Hf; reflexivity]. match type of Hf with (rbind ?x _) = _ => destruct x; inversion Hf; subst end. cbn [lookup].
    rewrite (proj2 (String.eqb_neq n _)) by assumption. reflexivity. }
  assert (Tf : match lookup "option_field" f with Some _ => true | None => false end = bit b 1).
  { destruct (bit b 1); [|inversion Hf; reflexivity]. match type of Hf with (rbind ?x _) = _ => destruct x; inversion Hf; subst end. reflexivity. }
  clear Ht Hf. unfold getattr.
  repeat split.
  all: destruct (bit b 1); destruct (ty =? 178); [destruct (ty =? 162)|destruct (ty =? 162)|destruct (ty =? 162)|destruct (ty =? 162)]; cbn [orb negb app lookup String.eqb Ascii.eqb Bool.eqb].
  all: rewrite ?Lt by discriminate; rewrite ?Lf by discriminate; try reflexivity; try exact Tf; try exact Tt.
Qed.
Print Assumptions C26_presence.
Example C26_case : exists v, from_bytes (p_TextMessageProtocol V010) (B [0x40; 0xA1; 0; 20; 0; 2; 0; 0; 0; 1; 10; 0; 0; 1; 10; 0; 0; 2; 0x68; 0; 0x69; 0; 0x21; 0; 0xff]) = Ok v /\
  getattr "tmdata" v = Some (VStr (lit "hi")) /\ getattr "option_field" v = Some (VStr (lit "!")) /\ getattr "source_ip" v <> None /\ getattr "result" v = None.
Proof. eexists. split; [vm_compute; reflexivity|]. vm_compute. repeat split; discriminate. Qed.
Example C26_case_ack : exists v, from_bytes (p_TextMessageProtocol V011) (B [0; 0xB2; 0; 9; 0; 0; 0; 1; 10; 0; 0; 1; 0]) = Ok v /\
  getattr "source_ip" v = None /\ getattr "result" v <> None.
Proof. eexists. split; [vm_compute; reflexivity|]. vm_compute. repeat split; discriminate. Qed.

(** * C27 *)
Theorem C27_location_decoding : forall rt b, from_bytes (p_LocationProtocol rt) b = stand_alone lp_at b.
Proof. intros rt b. apply runs_dec_from_bytes. apply d_lp. Qed.
Print Assumptions C27_location_decoding.
(** opcode -> class of the body *)
Definition lp_classes : list (Z * string) := [
  (0xA001, "StandardRequest"); (0xA002, "StandardAnswer"); (0xA003, "StandardAnswerWithRssi");
  (0xB001, "EmergencyReportStopRequest"); (0xB002, "EmergencyReportStopAnswer"); (0xB003, "EmergencyReport");
  (0xC001, "TriggeredReportRequest"); (0xC002, "TriggeredReportAnswer"); (0xC003, "TriggeredReport"); (0xC004, "TriggeredReportStopRequest"); (0xC005, "TriggeredReportStopAnswer");
  (0xD001, "ConditionReportRequest"); (0xD002, "ConditionReportAnswer"); (0xD003, "ConditionReport"); (0xD004, "ConditionReportWithRssi");
  (0xD011, "ConditionQuickGpsRequest"); (0xD012, "ConditionQuickGpsAnswer")].
Theorem C27_body_by_opcode : forall rt b v, from_bytes (p_LocationProtocol rt) b = Ok v ->
  getattr "opcode_header" v = Some (resolve_enum LocationProtocol_LpSpecificTypes (ubits b 0 16)) /\
  getattr "message_length" v = Some (VInt (ubits b 16 16)) /\
  match select (ubits b 0 16) lp_classes with
  | Some c => exists a, getattr "data" v = Some (VObj ("LocationProtocol." ++ c)%string a)
  | None => getattr "data" v = None
  end.
Proof.
  intros rt b v H. rewrite C27_location_decoding in H. unfold stand_alone, lp_at in H. change (8 * 0) with 0 in H. change (0 + 4) with 4 in H.
  pose proof (blen_nonneg b) as Hb0. destruct (Z_lt_ge_dec (blen b) 4) as [L|L].
  { exfalso. revert H. unfold L_LocationProtocol. match goal with |- ?x = _ -> _ => assert (E : x = Err EOFError) by (short_tail 0); rewrite E end. discriminate. }
  unfold L_LocationProtocol in H.
  assert (E : fields b 0 [F "opcode_header" 0 (Enm LocationProtocol_LpSpecificTypes 16); F "message_length" 16 (U 16)] =
    Ok [("opcode_header", resolve_enum LocationProtocol_LpSpecificTypes (ubits b 0 16)); ("message_length", VInt (ubits b 16 16))]) by (long_fields; reflexivity).
  rewrite E in H. cbn [rbind] in H. set (op := ubits b 0 16) in *. clearbody op.
  assert (P : match select op lp_bodies with
    | Some f => exists r, f b 4 = Ok r /\ v = VObj "LocationProtocol" [("opcode_header", resolve_enum LocationProtocol_LpSpecificTypes op); ("message_length", VInt (ubits b 16 16)); ("data", fst r)]
    | None => v = VObj "LocationProtocol" [("opcode_header", resolve_enum LocationProtocol_LpSpecificTypes op); ("message_length", VInt (ubits b 16 16))] end).
  { destruct (select op lp_bodies) as [f|]; cbn [part] in H.
    - destruct (f b 4) as [r|]; [|discriminate]. exists r. split; [reflexivity|]. cbn [rbind rmap fst snd app] in H. congruence.
    - cbn [rbind rmap fst snd app] in H. congruence. }
  clear H E. unfold lp_bodies in P. unfold lp_classes. cbn [select] in P |- *.
  repeat match goal with |- context [op =? ?c] => destruct (op =? c);
    [destruct P as [r [Hr ->]]; split; [reflexivity|]; split; [reflexivity|]; unfold quick_gps_request, table in Hr;
     match type of Hr with rbind ?x _ = _ => destruct x as [a|]; [|discriminate] end; exists a; cbn [rbind] in Hr; assert (Er : r = (VObj _ a, _)) by (symmetry; injection Hr; intro; eassumption); rewrite Er; reflexivity|] end.
  subst v. repeat split; reflexivity.
Qed.
Print Assumptions C27_body_by_opcode.
(** the payload of a quick GPS request: present exactly for cmd_type 1 (start_request) *)
Theorem C27_quick_gps_payload : forall rt b v d, from_bytes (p_LocationProtocol rt) b = Ok v -> ubits b 0 16 = 0xD011 -> getattr "data" v = Some d ->
  getattr "cmd_type" d = Some (resolve_enum LocationProtocol_CmdTypes (ubits b 96 8)) /\
  (getattr "quick_gps_payload" d <> None <-> ubits b 96 8 = 1).
Proof.
  intros rt b v d H Hop Hd. rewrite C27_location_decoding in H. unfold stand_alone, lp_at in H. change (8 * 0) with 0 in H. change (0 + 4) with 4 in H. rewrite Hop in H.
  destruct (fields b 0 L_LocationProtocol) as [h|] eqn:Hh; [|discriminate]. cbn [rbind] in H.
  change (select 0xD011 lp_bodies) with (Some quick_gps_request) in H. cbn [part] in H. unfold quick_gps_request, table in H. change (8 * 4 + 64) with 96 in H.
  unfold L_LocationProtocol in Hh. apply (f_equal (rmap (lookup "data"))) in Hh as Hl.
  assert (Nd : lookup "data" h = None).
  { clear H Hd Hl. revert Hh. spec_cbn. destruct (fits b 0 16); [|discriminate]. destruct (fits b 0 32); [|discriminate]. cbn [rmap rbind]. intros E. assert (E' : h = _) by (symmetry; injection E; intro X; exact X). rewrite E'. reflexivity. }
  destruct (fields b 4 (L_quick_gps_request (ubits b 96 8))) as [a|] eqn:Ha; [|discriminate]. cbn [rbind rmap fst snd] in H.
  assert (Ev : v = VObj "LocationProtocol" (h ++ [("data", VObj "LocationProtocol.ConditionQuickGpsRequest" a)])) by congruence. subst v. clear H.
  unfold getattr at 1 in Hd. rewrite lookup_app, Nd in Hd. cbn [lookup String.eqb Ascii.eqb Bool.eqb] in Hd. assert (Ed : d = VObj "LocationProtocol.ConditionQuickGpsRequest" a) by congruence. subst d. clear Hd. cbn [getattr].
  unfold L_quick_gps_request in Ha. cbn [app] in Ha.
  assert (X : exists r i q, a = [("request_id", r); ("radio_ip", i); ("cmd_type", resolve_enum LocationProtocol_CmdTypes (ubits b 96 8))] ++ q /\
     (if ubits b 96 8 =? 1 then exists p, q = [("quick_gps_payload", p)] else q = [])).
  { revert Ha. destruct (ubits b 96 8 =? 1).
    - cbn [app fields decode f_off f_kind f_name kwidth nwidth num rbind rmap]. norm_lits. destruct (fits b 4 32); [|discriminate]. destruct (object "RadioIp" L_RadioIp b 8); [|discriminate]. destruct (fits b 4 72); [|discriminate].
      destruct (object "LocationProtocol.QuickGpsPayload" _ b 13); [|discriminate]. intros E. cbn [rbind rmap] in E. do 3 eexists. split; [symmetry; injection E; intro Y; exact Y|]. eexists. reflexivity.
    - cbn [app fields decode f_off f_kind f_name kwidth nwidth num rbind rmap]. norm_lits. destruct (fits b 4 32); [|discriminate]. destruct (object "RadioIp" L_RadioIp b 8); [|discriminate]. destruct (fits b 4 72); [|discriminate].
      intros E. cbn [rbind rmap] in E. do 3 eexists. split; [symmetry; injection E; intro Y; exact Y|]. reflexivity. }
  destruct X as [r [i [q [-> Q]]]]. split; [reflexivity|]. destruct (Z.eqb_spec (ubits b 96 8) 1) as [E|E].
  - destruct Q as [p ->]. split; [intros _; exact E|]. intros _. discriminate.
  - subst q. split; [|contradiction]. intros X. exfalso. apply X. reflexivity.
Qed.
Print Assumptions C27_quick_gps_payload.
(** the RSSI of the two reports that have one: the signed 16-bit number after the GPS block *)
Theorem C27_rssi : forall rt b v d, from_bytes (p_LocationProtocol rt) b = Ok v -> ubits b 0 16 = 0xA003 \/ ubits b 0 16 = 0xD004 -> getattr "data" v = Some d ->
  exists z, getattr "rssi_value" d = Some (VInt z) /\ -32768 <= z <= 32767 /\ z mod 65536 = ubits b 432 16.
Proof.
  intros rt b v d H Hop Hd. rewrite C27_location_decoding in H. unfold stand_alone, lp_at in H. change (8 * 0) with 0 in H. change (0 + 4) with 4 in H.
  destruct (fields b 0 L_LocationProtocol) as [h|] eqn:Hh; [|discriminate]. cbn [rbind] in H.
  assert (Nd : lookup "data" h = None).
  { clear H Hd. revert Hh. unfold L_LocationProtocol. spec_cbn. destruct (fits b 0 16); [|discriminate]. destruct (fits b 0 32); [|discriminate]. cbn [rmap rbind]. intros E. assert (E' : h = _) by (symmetry; injection E; intro X; exact X). rewrite E'. reflexivity. }
  assert (X : exists cls, part "data" (select (ubits b 0 16) lp_bodies) b 4 = part "data" (Some (table cls L_LocationProtocol_StandardAnswerWithRssi)) b 4).
  { destruct Hop as [->| ->]; eexists; reflexivity. }
  destruct X as [cls X]. rewrite X in H. cbn [part] in H. unfold table in H. clear X.
  destruct (fields b 4 L_LocationProtocol_StandardAnswerWithRssi) as [a|] eqn:Ha; [|discriminate]. cbn [rbind rmap fst snd] in H.
  assert (Ev : v = VObj "LocationProtocol" (h ++ [("data", VObj cls a)])) by congruence. subst v. clear H.
  unfold getattr at 1 in Hd. rewrite lookup_app, Nd in Hd. cbn [lookup String.eqb Ascii.eqb Bool.eqb] in Hd. assert (Ed : d = VObj cls a) by congruence. subst d. clear Hd. cbn [getattr].
  revert Ha. unfold L_LocationProtocol_StandardAnswerWithRssi.
  cbn [app fields decode f_off f_kind f_name kwidth nwidth num rbind rmap]. norm_lits. destruct (fits b 4 32); [|discriminate]. destruct (object "RadioIp" L_RadioIp b 8); [|discriminate].
  destruct (fits b 4 80); [|discriminate]. destruct (object "Gpsdata" L_Gpsdata b 14); [|discriminate]. destruct (fits b 4 416); [|discriminate]. cbn [rbind rmap]. intros E.
  assert (E' : a = _) by (symmetry; injection E; intro Y; exact Y). rewrite E'. cbn [lookup String.eqb Ascii.eqb Bool.eqb]. eexists. split; [reflexivity|].
  pose proof (ubits_bound b 432 16 ltac:(lia)) as B. change (2 ^ 16) with 65536 in B. destruct (Z.ltb_spec (ubits b 432 16) 32768); lia.
Qed.
Print Assumptions C27_rssi.
Example C27_case : exists v d, from_bytes (p_LocationProtocol V010) (B ([0xA0; 3; 0; 52; 0; 0; 0; 7; 10; 0; 0; 1; 0; 0] ++ List.repeat 0x41 40 ++ [0xff; 0xfe])) = Ok v /\
  getattr "data" v = Some d /\ getattr "rssi_value" d = Some (VInt (-2)) /\ getattr "request_id" d = Some (VInt 7).
Proof. do 2 eexists. split; [vm_compute; reflexivity|]. split; [vm_compute; reflexivity|]. vm_compute. repeat split; reflexivity. Qed.
Example C27_case_quick : exists v d, from_bytes (p_LocationProtocol V011) (B [0xD0; 0x11; 0; 9; 0; 0; 0; 7; 10; 0; 0; 1; 0]) = Ok v /\
  getattr "data" v = Some d /\ getattr "quick_gps_payload" d = None.
Proof. do 2 eexists. split; [vm_compute; reflexivity|]. split; [vm_compute; reflexivity|]. vm_compute. repeat split; reflexivity. Qed.
