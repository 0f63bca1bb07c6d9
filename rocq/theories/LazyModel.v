(** The remaining lazily evaluated attributes, as attributes of a parsed object.  Their first evaluation
    happens during [_read] (HyteraModel.v, MotorolaModel.v record the memo attribute it leaves); these are
    the later accesses by a user. *)
From Verif Require Import PyBase Runtime Getters HyteraModel.
Open Scope string_scope.
Open Scope list_scope.
Open Scope Z_scope.

(** [v.x], and its use as a truth value, in [int(...)], and in arithmetic.  Objects made by [_read] only
    have booleans and integers there; for anything else an error stands for whatever Python does. *)
Definition attribute (x : string) (v : pyval) : M pyval :=
  match getattr x v with Some w => ret w | None => fail (AttributeError x) end.
Definition truth (v : pyval) : M bool := match v with VBool b => ret b | _ => fail TypeError end.
Definition int_of_bool (v : pyval) : M Z :=
  match v with VBool b => ret (Z.b2z b) | VEnum _ _ z => ret z | _ => fail (AttributeError "value") end.
Definition number_of (v : pyval) : M Z := match v with VInt z => ret z | _ => fail TypeError end.

Section Lazy.
Context (rt : runtime).

(** hytera/telemetry_protocol.py:204-214 [TelemetryProtocol.specific_service] *)
Definition TelemetryProtocol_specific_service_property : live -> res pyval * live :=
  memo "specific_service" (fun _ => TelemetryProtocol_specific_service rt).

(** hytera/text_message_protocol.py:98-106 [TextMessageProtocol.option_sum_len] *)
Definition TextMessageProtocol_option_sum_len_property : live -> res pyval * live :=
  memo "option_sum_len" (fun a =>
    flag <- stored "option_flag" a;;
    v <- (match flag with VEnum _ _ z => ret z | VBool b => ret (Z.b2z b) | _ => fail (AttributeError "value") end);;
    if v =? 1 then (n <- stored_int "option_field_len" a;; ret (VInt (n + 2))) else ret (VInt 0)).

(** hytera/real_time_transport_protocol.py:97-107 [RealTimeTransportProtocol.len_padding_if_exists]; without
    the padding bit nothing is stored and [None] returned *)
Definition RealTimeTransportProtocol_len_padding_if_exists_property (o : live) : res pyval * live :=
  match lookup "_m_len_padding_if_exists" (l_attrs o) with
  | Some v => (Ok v, o)
  | None =>
      match (h <- stored "fixed_header" (l_attrs o);; p <- attribute "padding" h;; b <- truth p;;
             if b then (n <- RealTimeTransportProtocol_len_padding_if_exists rt;; ret (Some n)) else ret None) (l_io o) with
      | (Ok (Some n), io) => (Ok (VInt n), {| l_attrs := l_attrs o ++ [("_m_len_padding_if_exists", VInt n)]; l_io := io |})
      | (Ok None, io) => (Ok VNone, {| l_attrs := l_attrs o; l_io := io |})
      | (Err e, io) => (Err e, {| l_attrs := l_attrs o; l_io := io |})
      end
  end.

(** hytera/real_time_transport_protocol.py:110-117 [RealTimeTransportProtocol.len_padding] *)
Definition RealTimeTransportProtocol_len_padding_property (o : live) : res pyval * live :=
  match lookup "_m_len_padding" (l_attrs o) with
  | Some v => (Ok v, o)
  | None =>
      match (h <- stored "fixed_header" (l_attrs o);; p <- attribute "padding" h;; truth p) (l_io o) with
      | (Err e, io) => (Err e, {| l_attrs := l_attrs o; l_io := io |})
      | (Ok b, io) =>
          match (if b then RealTimeTransportProtocol_len_padding_if_exists_property {| l_attrs := l_attrs o; l_io := io |}
                 else (Ok (VInt 0), {| l_attrs := l_attrs o; l_io := io |})) with
          | (Ok v, o') => (Ok v, {| l_attrs := l_attrs o' ++ [("_m_len_padding", v)]; l_io := l_io o' |})
          | (Err e, o') => (Err e, o')
          end
      end
  end.

(** motorola/text_message_protocol.py:209-219 [TextMessageProtocol.custom_pdu_type] *)
Definition MotTextMessageProtocol_custom_pdu_type_property : live -> res pyval * live :=
  memo "custom_pdu_type" (fun a =>
    h <- stored "message_header" a;; x <- attribute "acknowledgement_required" h;; x <- int_of_bool x;;
    h <- stored "message_header" a;; y <- attribute "control_user_bit" h;; y <- int_of_bool y;;
    h <- stored "message_header" a;; z <- attribute "pdu_type" h;; z <- number_of z;;
    ret (VInt ((Z.shiftl x 5 + Z.shiftl y 4) + z))).
End Lazy.
