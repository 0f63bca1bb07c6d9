(** Model of okdmr/kaitai/tools: byteswap.py, prettyprint.py and debug.py with the command line entry
    points of debug_homebrew.py, debug_hytera.py and debug_motorola.py (paths are relative to
    /repo/okdmr/kaitai), and of the two built-in methods they call, [bytes.fromhex] and [bytes.hex]. *)
From Verif Require Import PyBase Runtime Codec Enums Getters EtsiModel HomebrewModel HyteraModel MotorolaModel.
Open Scope string_scope.
Open Scope list_scope.
Open Scope Z_scope.

(** * tools/byteswap.py *)

(** The [bytearray] objects that exist; a reference is an index. *)
Definition buffers := list bytes.
Definition bufref := nat.
Fixpoint set_buffer (r : bufref) (x : bytes) (h : buffers) : buffers :=
  match h, r with
  | [], _ => []
  | _ :: h', O => x :: h'
  | y :: h', S r' => y :: set_buffer r' x h'
  end.

(** [data[0::2]] and [data[1::2]] *)
Fixpoint evens (l : bytes) : bytes := match l with [] => [] | x :: l' => x :: odds l' end
with odds (l : bytes) : bytes := match l with [] => [] | _ :: l' => evens l' end.

(** [data[0::2] = v] and [data[1::2] = v]; [None] is Python's ValueError "attempt to assign sequence of
    size ... to extended slice of size ..." *)
Fixpoint set_evens (l v : bytes) : option bytes :=
  match l with
  | [] => match v with [] => Some [] | _ => None end
  | _ :: l' => match v with [] => None | y :: v' => option_map (cons y) (set_odds l' v') end
  end
with set_odds (l v : bytes) : option bytes :=
  match l with
  | [] => match v with [] => Some [] | _ => None end
  | x :: l' => option_map (cons x) (set_evens l' v)
  end.

(** [data[:n]]; a negative [n] counts from the end *)
Definition upto (n : Z) (l : bytes) : bytes :=
  firstn (Z.to_nat (if n <? 0 then blen l + n else n)) l.

(** tools/byteswap.py:1-7 [byteswap_bytearray]; [data] is a reference, the array is changed in place *)
Definition byteswap_bytearray (data : bufref) (h : buffers) : res bytes * buffers :=
  let d0 := nth data h [] in
  let trim := blen d0 - 1 in
  let d1 := if negb (blen d0 mod 2 =? 0) then d0 ++ [zb 0] else d0 in
  let rhs_0 := odds d1 in
  let rhs_1 := evens d1 in
  match set_evens d1 rhs_0 with
  | None => (Err ValueError, set_buffer data d1 h)
  | Some d2 =>
      match set_odds d2 rhs_1 with
      | None => (Err ValueError, set_buffer data d2 h)
      | Some d3 => (Ok (upto trim d3), set_buffer data d3 h)
      end
  end.

(** tools/byteswap.py:10-11 [byteswap_bytes]; [bytearray(data)] makes a new array *)
Definition byteswap_bytes (data : bytes) (h : buffers) : res bytes * buffers :=
  byteswap_bytearray (List.length h) (h ++ [data]).

(** * bytes.fromhex and bytes.hex *)

(** value of a hexadecimal digit (code point), either case *)
Definition hex_digit (c : Z) : option Z :=
  if (48 <=? c) && (c <=? 57) then Some (c - 48)
  else if (97 <=? c) && (c <=? 102) then Some (c - 87)
  else if (65 <=? c) && (c <=? 70) then Some (c - 55)
  else None.
(** ASCII white space: space, \t \n \v \f \r *)
Definition is_space (c : Z) : bool := (c =? 32) || ((9 <=? c) && (c <=? 13)).

(** CPython [_PyBytes_FromHex]: white space may stand before every pair and at the end *)
Fixpoint fromhex (s : pystr) : res bytes :=
  match s with
  | [] => Ok []
  | c :: s1 =>
      if is_space c then fromhex s1
      else match s1 with
           | [] => Err ValueError
           | d :: s2 =>
               match hex_digit c, hex_digit d with
               | Some hi, Some lo => rmap (cons (zb (Z.lor (Z.shiftl hi 4) lo))) (fromhex s2)
               | _, _ => Err ValueError
               end
           end
  end.

(** [bytes.hex()]: two lower-case digits per byte *)
Definition hexchar (n : Z) : Z := if n <? 10 then 48 + n else 87 + n.
Fixpoint tohex (l : bytes) : pystr :=
  match l with
  | [] => []
  | x :: l' => hexchar (Z.shiftr (bz x) 4) :: hexchar (Z.land (bz x) 15) :: tohex l'
  end.

(** * tools/prettyprint.py *)

(** The Python object graph.  [CObj]: a KaitaiStruct with its [__dict__] in insertion order; [CList]: a
    list; [CPlain]: an immutable value (number, bool, bytes, str, enum member, None); [CStream]: a
    KaitaiStream. *)
Definition ref := nat.
Inductive cell :=
| CObj (cls : string) (dict : list (string * ref))
| CList (l : list ref)
| CPlain (v : pyval)
| CStream.
Definition heap := list cell.

(** What [_prettyprint] returns: dictionaries and lists of unchanged values ([SRef] is a value that is
    neither a KaitaiStruct nor a list nor plain: a stream). *)
Inductive shown :=
| SDict (l : list (string * shown))
| SList (l : list shown)
| SPlain (v : pyval)
| SRef (r : ref).

Fixpoint traverse {A B} (f : A -> option B) (l : list A) : option (list B) :=
  match l with
  | [] => Some []
  | x :: l' => match f x with Some y => option_map (cons y) (traverse f l') | None => None end
  end.

(** tools/prettyprint.py:27 *)
Definition not_acceptable (key : string) : bool :=
  existsb (String.eqb key) ["_io"; "_parent"; "_root"; "_debug"].

(** the value of a plain cell, shown as it is *)
Definition as_is (h : heap) (r : ref) : shown :=
  match nth_error h r with Some (CPlain v) => SPlain v | _ => SRef r end.

(** tools/prettyprint.py:23-36 [_prettyprint] and :10-20 [_array_prettyprint].  [fuel] bounds the depth of
    the recursion; [None] means that it did not suffice (or that [r] is not a KaitaiStruct). *)
Fixpoint _prettyprint (fuel : nat) (h : heap) (r : ref) : option shown :=
  match fuel with
  | O => None
  | S fuel' =>
      match nth_error h r with
      | Some (CObj _ dict) =>
          let acceptable_items := filter (fun kv => negb (not_acceptable (fst kv))) dict in
          option_map SDict (traverse (fun kv =>
            option_map (pair (fst kv))
              (match nth_error h (snd kv) with
               | Some (CObj _ _) => _prettyprint fuel' h (snd kv)
               | Some (CList l) => _array_prettyprint fuel' h l
               | _ => Some (as_is h (snd kv))
               end)) acceptable_items)
      | _ => None
      end
  end
with _array_prettyprint (fuel : nat) (h : heap) (data : list ref) : option shown :=
  match fuel with
  | O => None
  | S fuel' =>
      option_map SList (traverse (fun x =>
        match nth_error h x with
        | Some (CObj _ _) => _prettyprint fuel' h x
        | Some (CList l) => _array_prettyprint fuel' h l
        | _ => Some (as_is h x)
        end) data)
  end.

(** ** The object graph the generated constructors build
    Every generated class has (e.g. etsi/dmr_csbk.py:42-46)
    [[
      def __init__(self, _io, _parent=None, _root=None):
          self._io = _io
          self._parent = _parent
          self._root = _root if _root else self
          self._read()
    ]]
    and nested objects are built with [T(self._io, self, self._root)] (types imported from another file
    with [T(self._io)], i.e. with [_parent = None] and [_root] the object itself; here they get the parent
    and root like the others).  Cell 0 is [None]. *)
Definition set_cell (r : ref) (c : cell) (h : heap) : heap := firstn r h ++ c :: skipn (S r) h.

Fixpoint build (v : pyval) (parent : ref) (root : option ref) (h : heap) {struct v} : heap * ref :=
  match v with
  | VObj cls a =>
      let r := List.length h in
      let io := S r in
      let root' := match root with Some x => x | None => r end in
      let '(h', d) :=
        (fix go (a : attrs) (h : heap) : heap * list (string * ref) :=
           match a with
           | [] => (h, [])
           | (n, x) :: a' =>
               let '(h1, r1) := build x r (Some root') h in
               let '(h2, d2) := go a' h1 in (h2, (n, r1) :: d2)
           end) a (h ++ [CObj cls []; CStream]) in
      (set_cell r (CObj cls (("_io", io) :: ("_parent", parent) :: ("_root", root') :: d)) h', r)
  | VList l =>
      let '(h', rs) :=
        (fix go (l : list pyval) (h : heap) : heap * list ref :=
           match l with
           | [] => (h, [])
           | x :: l' =>
               let '(h1, r1) := build x parent root h in
               let '(h2, rs) := go l' h1 in (h2, r1 :: rs)
           end) l h in
      (h' ++ [CList rs], List.length h')
  | _ => (h ++ [CPlain v], List.length h)
  end.

Definition graph (v : pyval) : heap * ref := build v O None [CPlain VNone].

(** tools/prettyprint.py:6-7 [prettyprint] up to the text layout of [pprint]: the value handed to
    [pprint].  The recursion depth of a terminating call is at most the number of cells. *)
Definition prettyprint (v : pyval) : option shown :=
  let '(h, r) := graph v in _prettyprint (S (List.length h)) h r.

(** * tools/debug.py *)

(** A console script of pyproject.toml (:56-70): its class, the parser of the class and whether the
    class is IpSiteConnectProtocol. *)
Record tool := { t_class : string; t_parser : runtime -> M pyval; t_ipsc : bool }.
Definition plain_tool (cls : string) (p : runtime -> M pyval) : tool := {| t_class := cls; t_parser := p; t_ipsc := false |}.

(** tools/debug_homebrew.py:6-19, tools/debug_hytera.py:19-89, tools/debug_motorola.py:8-20; the names
    are the script names in pyproject.toml *)
Definition tools : list (string * tool) := [
  ("debug-motorola-ars", plain_tool "AutomaticRegistrationService" p_AutomaticRegistrationService);
  ("debug-motorola-tmp", plain_tool "TextMessageProtocol" p_MotTextMessageProtocol);
  ("debug-hytera-rrs", plain_tool "RadioRegistrationService" p_RadioRegistrationService);
  ("debug-hytera-tmp", plain_tool "TextMessageProtocol" p_TextMessageProtocol);
  ("debug-hytera-ipsc", {| t_class := "IpSiteConnectProtocol"; t_parser := p_IpSiteConnectProtocol; t_ipsc := true |});
  ("debug-hytera-rcp", plain_tool "RadioControlProtocol" p_RadioControlProtocol);
  ("debug-hytera-dds", plain_tool "DataDeliveryStates" p_DataDeliveryStates);
  ("debug-hytera-hdap", plain_tool "HyteraDmrApplicationProtocol" p_HyteraDmrApplicationProtocol);
  ("debug-hytera-hrnp", plain_tool "HyteraRadioNetworkProtocol" p_HyteraRadioNetworkProtocol);
  ("debug-hytera-hstrp", plain_tool "HyteraSimpleTransportReliabilityProtocol" p_HyteraSimpleTransportReliabilityProtocol);
  ("debug-hytera-lp", plain_tool "LocationProtocol" p_LocationProtocol);
  ("debug-hytera-dtp", plain_tool "DataTransmitProtocol" p_DataTransmitProtocol);
  ("debug-hytera-tp", plain_tool "TelemetryProtocol" p_TelemetryProtocol);
  ("debug-homebrew", plain_tool "Homebrew2015" p_Homebrew2015);
  ("debug-mmdvm", plain_tool "Mmdvm2020" p_Mmdvm2020)].

(** What a run prints: the argument of [pprint], or the line [DMR DATA: <hex>]. *)
Inductive line := Pretty (d : shown) | DmrData (hex : pystr).

(** How a run ends: normally, with a traceback, or argparse's usage error (exit status 2).
    [Dashes]: some argument begins with '-', argparse then treats it as an option; not modelled. *)
Inductive ending := Done | Raised (e : exn) | UsageError | Dashes.

(** tools/debug.py:30-33 [getattr(ars, x)] *)
Definition touch (get : live -> res pyval * live) (o : live) : res live :=
  match get o with (Ok _, o') => Ok o' | (Err e, _) => Err e end.

(** tools/debug.py:28-39, the body of the loop: the lines printed and the exception, if any *)
Definition show_message (rt : runtime) (t : tool) (hex_msg : pystr) : list line * option exn :=
  match rbind (fromhex hex_msg) (open_object (t_parser t rt)) with
  | Err e => ([], Some e)
  | Ok o0 =>
      match (if t_ipsc t then
               rbind (touch IpSiteConnectProtocol_source_radio_id o0) (fun o1 =>
               rbind (touch IpSiteConnectProtocol_destination_radio_id o1) (fun o2 =>
               rbind (touch IpSiteConnectProtocol_color_code o2) (touch IpSiteConnectProtocol_is_wakeup)))
             else Ok o0) with
      | Err e => ([], Some e)
      | Ok o =>
          match prettyprint (VObj (t_class t) (l_attrs o)) with
          | None => ([], Some OutOfFuel)
          | Some d =>
              if t_ipsc t then
                match lookup "slot_type" (l_attrs o), lookup "ipsc_payload" (l_attrs o) with
                | Some slot_type, Some (VBytes payload) =>
                    if negb (eq_member IpSiteConnectProtocol_SlotTypes "slot_type_sync" slot_type)
                    then match fst (byteswap_bytes payload []) with
                         | Ok x => ([Pretty d; DmrData (tohex x)], None)
                         | Err e => ([Pretty d], Some e)
                         end
                    else ([Pretty d], None)
                | None, _ => ([Pretty d], Some (AttributeError "slot_type"))
                | _, None => ([Pretty d], Some (AttributeError "ipsc_payload"))
                | _, _ => ([Pretty d], Some TypeError)
                end
              else ([Pretty d], None)
          end
      end
  end.

(** tools/debug.py:27-39 [for hex_msg in args.hex: ...] *)
Fixpoint show_messages (rt : runtime) (t : tool) (hex : list pystr) : list line * ending :=
  match hex with
  | [] => ([], Done)
  | m :: hex' =>
      match show_message rt t m with
      | (out, None) => let '(out', e) := show_messages rt t hex' in (out ++ out', e)
      | (out, Some e) => (out, Raised e)
      end
  end.

(** tools/debug.py:13-18, 24: [parse_args] for one positional with [nargs="+"] *)
Definition starts_with_dash (s : pystr) : bool := match s with c :: _ => c =? 45 | [] => false end.

(** tools/debug.py:20-39 [ProtocolDebug._impl]; [arguments = None] for the console scripts, [argv] is
    [sys.argv[1:]] *)
Definition debug_impl (rt : runtime) (t : tool) (arguments : option (list pystr)) (argv : list pystr) : list line * ending :=
  let args := match arguments with None | Some [] => argv | Some l => l end in
  if existsb starts_with_dash args then ([], Dashes)
  else match args with
       | [] => ([], UsageError)
       | _ => show_messages rt t args
       end.
