(** Properties of one object accessed from several threads.

    The generated code of a property is cut into its atomic steps: one step is one operation on the object's dictionary
    ([hasattr], [self._m_x = ...], [self.y]), on the stream ([pos], [seek], [read_bytes]), or a computation on local
    values.  Threads take steps in any order.

    Simplifications: an operation of [KaitaiStream] is one step (it is a call of one operation of the file, plus, in 0.11,
    the reset of a bit buffer that is empty); an expression that only reads stored attributes is evaluated in one step
    (nothing assigns those after the constructor has returned). *)
From Verif Require Import PyBase Runtime Codec Enums Getters EtsiModel HomebrewModel HyteraModel MotorolaModel LazyModel SessionModel.
Open Scope string_scope.
Open Scope list_scope.
Open Scope Z_scope.

(** Code that has returned (or raised), or a step and what comes next; the step and the continuation see the object as it
    is when the step is taken. *)
Inductive prog := Done (r : res pyval) | Step (f : live -> live) (k : live -> prog).

Definition local (k : live -> prog) : prog := Step (fun o => o) k.
(** [self.n = v]: a new entry of the dictionary, or a new value for an old one *)
Fixpoint set_attr (n : string) (v : pyval) (a : attrs) : attrs :=
  match a with [] => [(n, v)] | (m, w) :: a => if String.eqb n m then (m, v) :: a else (m, w) :: set_attr n v a end.
Definition assign (n : string) (v : pyval) (p : prog) : prog :=
  Step (fun o => {| l_attrs := set_attr n v (l_attrs o); l_io := l_io o |}) (fun _ => p).
(** a stream operation of the object's stream *)
Definition on_io {A} (m : M A) (k : A -> prog) : prog :=
  Step (fun o => {| l_attrs := l_attrs o; l_io := snd (m (l_io o)) |}) (fun o => match fst (m (l_io o)) with Ok x => k x | Err e => Done (Err e) end).
(** [if hasattr(self, "_m_x"): return self._m_x] and the rest *)
Definition unless_cached (x : string) (rest : prog) : prog :=
  local (fun o => match lookup ("_m_" ++ x) (l_attrs o) with
    | Some _ => local (fun o => match lookup ("_m_" ++ x) (l_attrs o) with Some v => Done (Ok v) | None => Done (Err (AttributeError ("_m_" ++ x))) end)
    | None => rest end).
(** [return getattr(self, "_m_x", None)] *)
Definition return_cached (x : string) : prog :=
  local (fun o => Done (Ok match lookup ("_m_" ++ x) (l_attrs o) with Some v => v | None => VNone end)).

(** A value instance, e.g. hytera/ip_site_connect_protocol.py:100-106, hytera/radio_ip.py:42-56:
    [self._m_x = <expression>].  [g] is the property as modelled elsewhere (one atomic access); its computation is what it
    does on an object without a cache. *)
Definition forget (x : string) (o : live) : live :=
  {| l_attrs := filter (fun nv => negb (String.eqb (fst nv) ("_m_" ++ x))) (l_attrs o); l_io := l_io o |}.
Definition value_code (x : string) (g : live -> res pyval * live) : prog :=
  unless_cached x (local (fun o => match fst (g (forget x o)) with
    | Ok v => assign ("_m_" ++ x) v (return_cached x)
    | Err e => Done (Err e) end)).

(** An instance with [pos], e.g. hytera/location_protocol.py:394-404, homebrew/homebrew2015.py:283-291,
    hytera/telemetry_protocol.py:204-214: save the position, seek, read and decode, store, seek back. *)
Definition at_code (rt : runtime) (x : string) (pos : Z) (m : M pyval) : prog :=
  unless_cached x (on_io io_pos (fun back => on_io (io_seek rt pos) (fun _ => on_io m (fun v =>
    assign ("_m_" ++ x) v (on_io (io_seek rt back) (fun _ => return_cached x)))))).

(** etsi/dmr_data_header.py:400-459 [DmrDataHeader.data]; [_raw__m_data] is an attribute of the object, too. *)
Definition data_code (rt : runtime) : prog :=
  unless_cached "data" (on_io io_pos (fun back => on_io (io_seek rt 0) (fun _ =>
    local (fun o => match lookup "data_packet_format" (l_attrs o) with
      | None => Done (Err (AttributeError "data_packet_format"))
      | Some on =>
          on_io (read_bytes rt 12) (fun raw => assign "_raw__m_data" (VBytes raw) (local (fun o =>
            match lookup "_raw__m_data" (l_attrs o) with
            | Some (VBytes raw) => match from_bytes (data_header_body rt on) raw with
                | Ok v => assign "_m_data" v (on_io (io_seek rt back) (fun _ => return_cached "data"))
                | Err e => Done (Err e) end
            | Some _ => Done (Err TypeError)
            | None => Done (Err (AttributeError "_raw__m_data")) end)))
      end)))).

(** [p], then [k] on its value *)
Fixpoint and_then (p : prog) (k : pyval -> prog) : prog :=
  match p with Done (Ok v) => k v | Done (Err e) => Done (Err e) | Step f g => Step f (fun o => and_then (g o) k) end.
(** [self.fixed_header.padding] *)
Definition rtp_padding_bit (o : live) : res bool :=
  fst ((h <- stored "fixed_header" (l_attrs o);; p <- attribute "padding" h;; truth p) (stream_of [])).
(** hytera/real_time_transport_protocol.py:97-107 [RealTimeTransportProtocol.len_padding_if_exists] *)
Definition rtp_if_exists_code (rt : runtime) : prog :=
  unless_cached "len_padding_if_exists" (local (fun o => match rtp_padding_bit o with
    | Err e => Done (Err e)
    | Ok false => return_cached "len_padding_if_exists"
    | Ok true => on_io io_pos (fun back => on_io io_size (fun n => on_io (io_seek rt (n - 1)) (fun _ => on_io (read_u1 rt) (fun v =>
        assign "_m_len_padding_if_exists" (VInt v) (on_io (io_seek rt back) (fun _ => return_cached "len_padding_if_exists"))))))
    end)).
(** hytera/real_time_transport_protocol.py:110-117 [RealTimeTransportProtocol.len_padding] *)
Definition rtp_len_padding_code (rt : runtime) : prog :=
  unless_cached "len_padding" (local (fun o => match rtp_padding_bit o with
    | Err e => Done (Err e)
    | Ok p => and_then (if p then rtp_if_exists_code rt else Done (Ok (VInt 0))) (fun v => assign "_m_len_padding" v (return_cached "len_padding"))
    end)).

(** The code behind [obj.x] for an object of class [c]. *)
Definition code (rt : runtime) (c x : string) : prog :=
  if String.eqb c "DmrDataHeader" && String.eqb x "data" then data_code rt
  else if String.eqb c "LocationProtocol" && String.eqb x "opcode" then at_code rt x 0 (venum LocationProtocol_LpGeneralTypes (read_u1 rt))
  else if String.eqb c "TelemetryProtocol" && String.eqb x "specific_service" then at_code rt x 0 (venum TelemetryProtocol_ServiceSpecificTypes (read_u2be rt))
  else if (String.eqb c "Homebrew2015" || String.eqb c "Mmdvm2020") && String.eqb x "fifth_letter" then at_code rt x 4 (s <- read_str rt ASCII 1;; ret (VStr s))
  else if String.eqb c "RealTimeTransportProtocol" && String.eqb x "len_padding_if_exists" then rtp_if_exists_code rt
  else if String.eqb c "RealTimeTransportProtocol" && String.eqb x "len_padding" then rtp_len_padding_code rt
  else match find (fun e => String.eqb (fst (fst e)) c && String.eqb (snd (fst e)) x) (properties rt) with
    | Some e => value_code x (snd e)
    | None => local (fun o => Done (match lookup x (l_attrs o) with Some v => Ok v | None => Err (AttributeError x) end))
    end.

(** The code run to its end without interruption. *)
Fixpoint alone (p : prog) (o : live) : res pyval * live :=
  match p with Done r => (r, o) | Step f k => alone (k o) (f o) end.

(** ** Threads *)
(** A thread: the access it is in, the accesses it still has to make, the answers it got. *)
Record thread := { t_now : option (string * prog); t_todo : list string; t_log : list (string * res pyval) }.
Definition new_thread (todo : list string) : thread := {| t_now := None; t_todo := todo; t_log := [] |}.
(** One step of a thread of a program that works on an object of class [c]. *)
Definition thread_step (rt : runtime) (c : string) (t : thread) (o : live) : thread * live :=
  match t_now t with
  | None => match t_todo t with
      | [] => (t, o)
      | x :: todo => ({| t_now := Some (x, code rt c x); t_todo := todo; t_log := t_log t |}, o)
      end
  | Some (x, Done r) => ({| t_now := None; t_todo := t_todo t; t_log := t_log t ++ [(x, r)] |}, o)
  | Some (x, Step f k) => ({| t_now := Some (x, k o); t_todo := t_todo t; t_log := t_log t |}, f o)
  end.
(** A schedule: which thread takes the next step. *)
Fixpoint threads_run (rt : runtime) (c : string) (schedule : list nat) (ts : list thread) (o : live) : list thread * live :=
  match schedule with
  | [] => (ts, o)
  | i :: schedule => match nth_error ts i with
      | None => threads_run rt c schedule ts o
      | Some t => let '(t', o') := thread_step rt c t o in threads_run rt c schedule (set_nth i t' ts) o'
      end
  end.
