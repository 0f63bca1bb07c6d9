(** Lazily evaluated, memoised attributes ([instances] of the .ksy files).
    The compiler generates for every instance [x]
    [[
      @property
      def x(self):
          if hasattr(self, "_m_x"): return self._m_x
          self._m_x = <compute>          # may use self._io
          return getattr(self, "_m_x", None)
    ]]
    e.g. etsi/dmr_data_header.py:152-159, 400-459, hytera/radio_ip.py:33-56. *)
From Verif Require Import PyBase Runtime.
Open Scope string_scope.
Open Scope list_scope.
Open Scope Z_scope.

(** A live object: its attributes and the stream it was read from. *)
Record live := { l_attrs : attrs; l_io : stream }.

(** One access of the property [x] whose computation is [compute] (given the object's attributes). *)
Definition memo (x : string) (compute : attrs -> M pyval) (o : live) : res pyval * live :=
  match lookup ("_m_" ++ x)%string (l_attrs o) with
  | Some v => (Ok v, o)
  | None =>
      match compute (l_attrs o) (l_io o) with
      | (Ok v, io') => (Ok v, {| l_attrs := l_attrs o ++ [(("_m_" ++ x)%string, v)]; l_io := io' |})
      | (Err e, io') => (Err e, {| l_attrs := l_attrs o; l_io := io' |})
      end
  end.

(** [self.x] for a stored attribute *)
Definition stored (x : string) (a : attrs) : M pyval :=
  match lookup x a with Some v => ret v | None => fail (AttributeError x) end.

(** [self.x] where an int is needed (arithmetic on anything else is a TypeError) *)
Definition stored_int (x : string) (a : attrs) : M Z :=
  v <- stored x a;; match v with VInt z => ret z | _ => fail TypeError end.

(** The live object after parsing [b] stand-alone. *)
Definition open_object (p : M pyval) (b : bytes) : res live :=
  match p (stream_of b) with
  | (Ok (VObj _ a), io) => Ok {| l_attrs := a; l_io := io |}
  | (Ok _, _) => Err TypeError
  | (Err e, _) => Err e
  end.

(** A user's history with one object: read some property, or move the object's stream
    ([obj._io.seek(n)]) in between. *)
Inductive access := Get (x : string) | Seek (n : nat).

(** What a [Get] shows: the property, its outcome, and the stream position before and after. *)
Record observation := Obs { ob_name : string; ob_result : res pyval; ob_before : nat; ob_after : nat }.

(** [props]: the property functions of the class. *)
Fixpoint history (rt : runtime) (props : string -> live -> res pyval * live) (ops : list access) (o : live)
  : list observation :=
  match ops with
  | [] => []
  | Get x :: ops' =>
      let '(r, o') := props x o in
      Obs x r (s_pos (l_io o)) (s_pos (l_io o')) :: history rt props ops' o'
  | Seek n :: ops' =>
      history rt props ops' {| l_attrs := l_attrs o; l_io := snd (io_seek rt (Z.of_nat n) (l_io o)) |}
  end.
