(** C65: the code of a property, run without interruption, is the property. *)
From Verif Require Import PyBase Runtime Codec Enums RuntimeProofs Getters EtsiModel HomebrewModel HyteraModel MotorolaModel LazyModel KsySchema SessionModel SessionProofs ThreadModel ThreadProofs ThreadSafe.
Open Scope string_scope.
Open Scope list_scope.
Open Scope Z_scope.

(** All attributes but [_raw__m_data]. *)
Definition but_raw (a : attrs) : attrs := filter (fun nv => negb (String.eqb (fst nv) "_raw__m_data")) a.
Definition same_live (r r' : res pyval * live) : Prop := fst r = fst r' /\ l_io (snd r) = l_io (snd r') /\ but_raw (l_attrs (snd r)) = but_raw (l_attrs (snd r')).
Lemma same_refl r r' : r = r' -> same_live r r'. Proof. intros ->. unfold same_live. auto. Qed.
Lemma alone_then p k o : alone (and_then p k) o = match alone p o with (Ok v, o') => alone (k v) o' | (Err e, o') => (Err e, o') end.
Proof. revert o. induction p as [r|f g IH]; intros o; cbn [and_then alone]; [destruct r; reflexivity|apply IH]. Qed.
Lemma alone_io {A} (m : M A) k o : alone (on_io m k) o = match fst (m (l_io o)) with Ok x => alone (k x) {| l_attrs := l_attrs o; l_io := snd (m (l_io o)) |} | Err e => (Err e, {| l_attrs := l_attrs o; l_io := snd (m (l_io o)) |}) end.
Proof. unfold on_io. cbn [alone]. destruct (fst (m (l_io o))); reflexivity. Qed.
Lemma alone_local k o : alone (local k) o = alone (k o) o. Proof. reflexivity. Qed.
Lemma alone_assign n v p o : alone (assign n v p) o = alone p {| l_attrs := set_attr n v (l_attrs o); l_io := l_io o |}. Proof. reflexivity. Qed.
Lemma alone_return x o v : lookup ("_m_" ++ x)%string (l_attrs o) = Some v -> alone (return_cached x) o = (Ok v, o).
Proof. intros E. unfold return_cached. rewrite alone_local. cbn [alone]. now rewrite E. Qed.
Lemma alone_unless x rest o : alone (unless_cached x rest) o = match lookup ("_m_" ++ x)%string (l_attrs o) with Some v => (Ok v, o) | None => alone rest o end.
Proof. unfold unless_cached. rewrite alone_local. destruct (lookup _ (l_attrs o)) eqn:E; [|reflexivity]. rewrite alone_local. rewrite E. reflexivity. Qed.
Lemma alone_value x g m o : (forall o, g o = memo x m o) -> pure m -> alone (value_code x g) o = memo x m o.
Proof.
  intros G [r [R1 _]]. unfold value_code. rewrite alone_unless. unfold memo at 1. destruct (lookup _ (l_attrs o)) eqn:E; [reflexivity|].
  rewrite alone_local. rewrite G. unfold memo, forget. cbn [l_attrs l_io]. rewrite (forget_new x _ E), E, !R1. destruct (r (l_attrs o)) as [v|e]; cbn [fst]; [|destruct o; reflexivity].
  rewrite alone_assign. rewrite set_new by exact E. rewrite (alone_return x _ v); [reflexivity|]. cbn [l_attrs]. now apply lookup_last.
Qed.
Lemma alone_at rt x k (m : M pyval) c o : (forall a s, c a s = (pos_ <- io_pos;; io_seek rt k;;; v <- m;; io_seek rt pos_;;; ret v) s) ->
  alone (at_code rt x k m) o = memo x c o.
Proof.
  intros C. unfold at_code. rewrite alone_unless. unfold memo. destruct (lookup _ (l_attrs o)) eqn:E; [reflexivity|].
  rewrite C. unfold bind at 1 2 3 4. unfold io_pos at 2. cbv beta iota. change (io_seek rt k (l_io o)) with (@Ok unit tt, snd (io_seek rt k (l_io o))). cbv beta iota.
  rewrite alone_io. cbn [io_pos fst snd]. rewrite alone_io. cbn [l_io l_attrs]. change (fst (io_seek rt k (l_io o))) with (@Ok unit tt). cbv iota. rewrite alone_io. cbn [l_io l_attrs].
  destruct (m (snd (io_seek rt k (l_io o)))) as [[v|e] s1]; cbn [fst snd]; [|reflexivity].
  rewrite alone_assign, alone_io. cbn [l_io l_attrs]. change (io_seek rt (Z.of_nat (s_pos (l_io o))) s1) with (@Ok unit tt, snd (io_seek rt (Z.of_nat (s_pos (l_io o))) s1)). cbn [fst snd]. cbv iota.
  rewrite set_new by exact E. rewrite (alone_return x _ v); [reflexivity|]. cbn [l_attrs]. now apply lookup_last.
Qed.
Lemma but_raw_set v a : but_raw (set_attr "_raw__m_data" v a) = but_raw a.
Proof. induction a as [|[n w] a IH]; [reflexivity|]. cbn [set_attr]. destruct (String.eqb_spec "_raw__m_data" n) as [<-|N]; [reflexivity|]. unfold but_raw in *. cbn [filter fst]. now rewrite IH. Qed.
Lemma but_raw_app a b : but_raw (a ++ b) = but_raw a ++ but_raw b. Proof. apply filter_app. Qed.
Lemma alone_data rt o : lookup "data_packet_format" (l_attrs o) <> None -> same_live (alone (data_code rt) o) (DmrDataHeader_data rt o).
Proof.
  intros D. unfold data_code. rewrite alone_unless. unfold DmrDataHeader_data, memo. cbn [append]. destruct (lookup "_m_data" (l_attrs o)) eqn:E; [now apply same_refl|].
  destruct (lookup "data_packet_format" (l_attrs o)) as [f|] eqn:F; [|contradiction].
  rewrite alone_io. cbn [io_pos fst snd]. rewrite alone_io. cbn [l_io l_attrs]. change (fst (io_seek rt 0 (l_io o))) with (@Ok unit tt). cbv iota. rewrite alone_local. cbn [l_attrs]. rewrite F. rewrite alone_io. cbn [l_io l_attrs].
  unfold bind at 1, stored. rewrite F. cbv beta iota delta [ret]. change (data_header_compute rt f (l_io o)) with (peek rt 0 12 (fun raw => from_bytes (data_header_body rt f) raw) (l_io o)).
  unfold peek, bind, io_pos. cbv beta iota. change (io_seek rt 0 (l_io o)) with (@Ok unit tt, snd (io_seek rt 0 (l_io o))). cbv beta iota. cbn [snd].
  destruct (read_bytes rt 12 (snd (io_seek rt 0 (l_io o)))) as [[raw|e] s1]; cbn [fst snd]; [|now apply same_refl].
  rewrite alone_assign, alone_local. cbn [l_attrs]. rewrite lookup_set, String.eqb_refl. unfold lift.
  destruct (from_bytes (data_header_body rt f) raw) as [v|e]; cbv iota.
  - change (io_seek rt (Z.of_nat (s_pos (l_io o))) s1) with (@Ok unit tt, snd (io_seek rt (Z.of_nat (s_pos (l_io o))) s1)). cbv iota beta delta [ret].
    rewrite alone_assign, alone_io. cbn [l_io l_attrs]. change (fst (io_seek rt (Z.of_nat (s_pos (l_io o))) s1)) with (@Ok unit tt). cbv iota.
    rewrite (alone_return "data" _ v); [|cbn [l_attrs append]; now rewrite lookup_set]. unfold same_live. cbn [fst snd l_io l_attrs]. split; [reflexivity|]. split; [reflexivity|].
    rewrite set_new by (now rewrite lookup_set). rewrite !but_raw_app, but_raw_set. reflexivity.
  - unfold same_live. cbn [alone fst snd l_io l_attrs]. split; [reflexivity|]. split; [reflexivity|]. apply but_raw_set.
Qed.
Lemma alone_rtp_if rt o : alone (rtp_if_exists_code rt) o = RealTimeTransportProtocol_len_padding_if_exists_property rt o.
Proof.
  unfold rtp_if_exists_code. rewrite alone_unless. unfold RealTimeTransportProtocol_len_padding_if_exists_property. cbn [append]. destruct (lookup "_m_len_padding_if_exists" (l_attrs o)) eqn:E; [reflexivity|].
  rewrite alone_local. destruct o as [a s]. cbn [l_attrs l_io] in *. unfold rtp_padding_bit, bind at 1 2 3 4, stored, attribute, truth, ret, fail. cbn [l_attrs].
  destruct (lookup "fixed_header" a) as [h|]; [|reflexivity]. destruct (getattr "padding" h) as [p|]; [|reflexivity]. destruct p; try reflexivity. destruct b; cbv iota beta; cbn [fst].
  2:{ unfold return_cached. rewrite alone_local. cbn [l_attrs append alone]. rewrite E. reflexivity. }
  rewrite alone_io. cbn [io_pos fst snd l_io l_attrs]. rewrite alone_io. cbn [io_size fst snd l_io l_attrs]. rewrite alone_io. cbn [l_io l_attrs]. change (fst (io_seek rt (blen (s_buf s) - 1) s)) with (@Ok unit tt). cbv iota. rewrite alone_io. cbn [l_io l_attrs].
  unfold RealTimeTransportProtocol_len_padding_if_exists, bind, io_pos, io_size. cbv beta iota. change (io_seek rt (blen (s_buf s) - 1) s) with (@Ok unit tt, snd (io_seek rt (blen (s_buf s) - 1) s)). cbv beta iota. cbn [snd].
  destruct (read_u1 rt (snd (io_seek rt (blen (s_buf s) - 1) s))) as [[v|e] s1]; cbn [fst snd]; [|reflexivity].
  change (io_seek rt (Z.of_nat (s_pos s)) s1) with (@Ok unit tt, snd (io_seek rt (Z.of_nat (s_pos s)) s1)). cbv iota beta delta [ret].
  rewrite alone_assign, alone_io. cbn [l_io l_attrs]. change (fst (io_seek rt (Z.of_nat (s_pos s)) s1)) with (@Ok unit tt). cbv iota.
  rewrite set_new by exact E. rewrite (alone_return "len_padding_if_exists" _ (VInt v)); [reflexivity|]. cbn [l_attrs append]. now apply lookup_last.
Qed.
Lemma rtp_if_attrs rt o : lookup "_m_len_padding" (l_attrs o) = None -> lookup "_m_len_padding" (l_attrs (snd (RealTimeTransportProtocol_len_padding_if_exists_property rt o))) = None.
Proof.
  intros L. unfold RealTimeTransportProtocol_len_padding_if_exists_property. destruct (lookup "_m_len_padding_if_exists" (l_attrs o)); [exact L|].
  match goal with |- context [bind ?m ?k ?s] => destruct (bind m k s) as [[[n|]|e] io] end; cbn [snd l_attrs]; [|exact L|exact L]. rewrite lookup_other by discriminate. exact L.
Qed.
Lemma alone_rtp_pad rt o : alone (rtp_len_padding_code rt) o = RealTimeTransportProtocol_len_padding_property rt o.
Proof.
  unfold rtp_len_padding_code. rewrite alone_unless. unfold RealTimeTransportProtocol_len_padding_property. cbn [append]. destruct (lookup "_m_len_padding" (l_attrs o)) eqn:E; [reflexivity|].
  rewrite alone_local. pose proof (rtp_if_attrs rt o E) as RA. pose proof (alone_rtp_if rt o) as AI. destruct o as [a s]. cbn [l_attrs l_io] in *. unfold rtp_padding_bit, bind, stored, attribute, truth, ret, fail. cbn [l_attrs].
  destruct (lookup "fixed_header" a) as [h|]; [|reflexivity]. destruct (getattr "padding" h) as [p|]; [|reflexivity]. destruct p; try reflexivity. cbv iota beta; cbn [fst].
  rewrite alone_then. destruct b.
  - rewrite AI. destruct (RealTimeTransportProtocol_len_padding_if_exists_property rt {| l_attrs := a; l_io := s |}) as [[v|e] o1]; [|reflexivity]. cbn [snd] in RA.
    rewrite alone_assign, set_new by exact RA. rewrite (alone_return "len_padding" _ v); [reflexivity|]. cbn [l_attrs append]. now apply lookup_last.
  - change (alone (Done (Ok (VInt 0))) {| l_attrs := a; l_io := s |}) with (@Ok pyval (VInt 0), {| l_attrs := a; l_io := s |}). cbv iota. rewrite alone_assign. cbn [l_attrs l_io]. rewrite set_new by exact E. rewrite (alone_return "len_padding" _ (VInt 0)); [reflexivity|]. cbn [l_attrs append]. now apply lookup_last.
Qed.
Lemma alone_code rt c x o : (c = "DmrDataHeader" -> x = "data" -> lookup "data_packet_format" (l_attrs o) <> None) -> same_live (alone (code rt c x) o) (ask rt c x o).
Proof.
  intros D. destruct (shapes rt c x) as [A E NF|g m NF A G P E|rest IF E].
  - rewrite E, A. now apply same_refl.
  - rewrite E, A. apply same_refl. now apply alone_value.
  - clear rest E. cbn [file_properties In] in IF. decompose [or] IF; try contradiction.
    all: match goal with H : (_, _) = (_, _) |- _ => injection H as <- <- end.
    + apply same_refl. refine (alone_at rt "fifth_letter" 4 _ _ o _). intros a s. unfold Homebrew2015_fifth_letter, read_str, bind, lift, io_pos, io_seek, ret, fail. cbv beta iota. match goal with |- context [read_bytes rt 1 ?z] => destruct (read_bytes rt 1 z) as [[y|e] s1] end; [|reflexivity]. destruct (py_decode ASCII y); reflexivity.
    + apply same_refl. refine (alone_at rt "fifth_letter" 4 _ _ o _). intros a s. unfold Mmdvm2020_fifth_letter, read_str, bind, lift, io_pos, io_seek, ret, fail. cbv beta iota. match goal with |- context [read_bytes rt 1 ?z] => destruct (read_bytes rt 1 z) as [[y|e] s1] end; [|reflexivity]. destruct (py_decode ASCII y); reflexivity.
    + apply same_refl. refine (alone_at rt "specific_service" 0 _ _ o _). reflexivity.
    + apply same_refl. apply alone_rtp_if.
    + apply same_refl. apply alone_rtp_pad.
    + apply same_refl. refine (alone_at rt "opcode" 0 _ _ o _). reflexivity.
    + apply (alone_data rt o). auto.
Qed.
