(** Several objects read from one open file: [Cls.from_io(f)], [Cls.from_file(name)], and what a program can do with the
    objects afterwards.  These two constructors are inherited by every class of /repo from [KaitaiStruct]
    (e.g. etsi/dmr_csbk.py:21 [class DmrCsbk(KaitaiStruct)]); in the runtime they are
    [[
      from_io(cls, io):     return cls(KaitaiStream(io))
      from_file(cls, name): f = open(name, "rb")
                            try: return cls(KaitaiStream(f))
                            except Exception: f.close(); raise
    ]]
    Every object has its own [KaitaiStream] (own bit buffer) on the one file, whose position they share. *)
From Verif Require Import PyBase Runtime Getters EtsiModel HomebrewModel HyteraModel MotorolaModel LazyModel.
Open Scope string_scope.
Open Scope list_scope.
Open Scope Z_scope.

(** A class of /repo: its name and its [_read]. *)
Definition class : Type := string * (runtime -> M pyval).

(** An object made by [from_io]: the class, the attributes, and the bit buffer of its stream. *)
Record handle := { h_class : string; h_attrs : attrs; h_bits : Z; h_left : Z }.
(** The file (contents and position) and the objects made so far. *)
Record world := { w_file : bytes; w_pos : nat; w_objects : list handle }.

(** The file as a stream with the given bit buffer. *)
Definition view (w : world) (bits left : Z) : stream := {| s_buf := w_file w; s_pos := w_pos w; s_bits := bits; s_left := left |}.

(** [cls.from_io(f)] *)
Definition from_io (rt : runtime) (c : class) (w : world) : res pyval * world :=
  match snd c rt (view w 0 0) with
  | (Ok (VObj n a), s) => (Ok (VObj n a), {| w_file := w_file w; w_pos := s_pos s;
      w_objects := w_objects w ++ [{| h_class := fst c; h_attrs := a; h_bits := s_bits s; h_left := s_left s |}] |})
  | (r, s) => (r, {| w_file := w_file w; w_pos := s_pos s; w_objects := w_objects w |})
  end.

(** [cls.from_file(name)] for a file with these contents: the outcome, and whether the file is left open. *)
Definition from_file (rt : runtime) (c : class) (contents : bytes) : res pyval * bool :=
  match snd c rt (stream_of contents) with (Ok v, _) => (Ok v, true) | (Err e, _) => (Err e, false) end.

(** All properties of the classes of /repo (the [@property] definitions): class, name, what an access does.
    The models cite the lines. *)
Definition properties (rt : runtime) : list (string * string * (live -> res pyval * live)) := [
  ("Homebrew2015", "fifth_letter", Homebrew2015_fifth_letter_property rt);
  ("Mmdvm2020", "fifth_letter", Mmdvm2020_fifth_letter_property rt);
  ("TelemetryProtocol", "specific_service", TelemetryProtocol_specific_service_property rt);
  ("TextMessageProtocol", "option_sum_len", TextMessageProtocol_option_sum_len_property);
  ("RealTimeTransportProtocol", "len_padding_if_exists", RealTimeTransportProtocol_len_padding_if_exists_property rt);
  ("RealTimeTransportProtocol", "len_padding", RealTimeTransportProtocol_len_padding_property rt);
  ("MotTextMessageProtocol", "custom_pdu_type", MotTextMessageProtocol_custom_pdu_type_property);
  ("DmrDataHeader_DataHeaderShortRaw", "appended_blocks", appended_blocks);
  ("DmrDataHeader_DataHeaderShortDefined", "appended_blocks", appended_blocks);
  ("DmrDataHeader_DataHeaderShortStatusPrecoded", "appended_blocks", appended_blocks);
  ("Gpsdata", "gps_available", Gpsdata_gps_available);
  ("IpSiteConnectProtocol", "source_radio_id", IpSiteConnectProtocol_source_radio_id);
  ("IpSiteConnectProtocol", "destination_radio_id", IpSiteConnectProtocol_destination_radio_id);
  ("IpSiteConnectProtocol", "color_code", IpSiteConnectProtocol_color_code);
  ("IpSiteConnectProtocol", "is_wakeup", IpSiteConnectProtocol_is_wakeup);
  ("LocationProtocol", "opcode", LocationProtocol_opcode rt);
  ("RadioId", "radio_id", RadioId_radio_id);
  ("RadioIp", "radio_id", RadioIp_radio_id);
  ("RadioIp", "radio_ip", RadioIp_radio_ip);
  ("MotTextMessageProtocol_TmsAcknowledgementHeaderSequenceNumber", "sequence_number", MotTextMessageProtocol_TmsAcknowledgementHeader_sequence_number);
  ("MotTextMessageProtocol_TextMessageHeaderSequenceAndEncoding", "sequence_number", MotTextMessageProtocol_TextMessageHeader_sequence_number);
  ("DmrDataHeader", "data", DmrDataHeader_data rt)].

(** [obj.x] for an object of class [c]: the property if the class has one of that name, else the stored attribute. *)
Definition ask (rt : runtime) (c x : string) (o : live) : res pyval * live :=
  match find (fun e => String.eqb (fst (fst e)) c && String.eqb (snd (fst e)) x) (properties rt) with
  | Some e => snd e o
  | None => (match lookup x (l_attrs o) with Some v => Ok v | None => Err (AttributeError x) end, o)
  end.

Fixpoint set_nth {A} (k : nat) (x : A) (l : list A) : list A :=
  match l, k with [], _ => [] | _ :: l, O => x :: l | y :: l, S k => y :: set_nth k x l end.

(** What a program does: make the next object, read attribute [x] of the [k]-th object, move the file position. *)
Inductive action := Next (c : class) | Ask (k : nat) (x : string) | SeekFile (n : nat).

(** One action: its outcome ([None]: there is no such object; nothing to show for a seek) and the world afterwards. *)
Definition act (rt : runtime) (a : action) (w : world) : option (res pyval) * world :=
  match a with
  | Next c => let '(r, w') := from_io rt c w in (Some r, w')
  | Ask k x => match nth_error (w_objects w) k with
      | None => (None, w)
      | Some h =>
          let '(r, o) := ask rt (h_class h) x {| l_attrs := h_attrs h; l_io := view w (h_bits h) (h_left h) |} in
          (Some r, {| w_file := w_file w; w_pos := s_pos (l_io o);
             w_objects := set_nth k {| h_class := h_class h; h_attrs := l_attrs o; h_bits := s_bits (l_io o); h_left := s_left (l_io o) |} (w_objects w) |})
      end
  | SeekFile n => (None, {| w_file := w_file w; w_pos := n; w_objects := w_objects w |})
  end.

(** A whole program: the outcomes in order, and the world at the end. *)
Fixpoint session (rt : runtime) (acts : list action) (w : world) : list (option (res pyval)) * world :=
  match acts with
  | [] => ([], w)
  | a :: acts => let '(r, w1) := act rt a w in let '(rs, w2) := session rt acts w1 in (r :: rs, w2)
  end.

(** [f = open(name, "rb")] *)
Definition opened (contents : bytes) : world := {| w_file := contents; w_pos := 0; w_objects := [] |}.
