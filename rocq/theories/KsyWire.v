(** How an object of a format definition is written on the wire: the bits of its attributes, one after the other, in the
    order of the definition, with nothing in between.  (Specification for C60; uses the syntax of Ksy.v and not its
    interpreter, and no stream.) *)
From Verif Require Import PyBase Runtime Codec CodecSpec Spec Ksy KsySchema.
Open Scope string_scope.
Open Scope list_scope.
Open Scope Z_scope.

(** The [n] lowest bits of a number (two's complement), most significant first. *)
Fixpoint msb (n : nat) (z : Z) : list bool := match n with O => [] | S n' => msb n' (z / 2) ++ [Z.odd z] end.
Definition bytes_bits (x : bytes) : list bool := flat_map (fun c => msb 8 (bz c)) x.
(** The bits of a packet from bit [o] up to bit [o']. *)
Definition span (b : bytes) (o o' : Z) : list bool := map (fun i => bit b (o + Z.of_nat i)) (List.seq 0 (Z.to_nat (o' - o))).

(** The number of an integer or of an enum member. *)
Definition wire_number (v : pyval) : option Z := match v with VInt z => Some z | VEnum _ _ z => Some z | _ => None end.
Definition int_bits (f : intfmt) (z : Z) : list bool :=
  match f with
  | U1 => msb 8 z
  | U2be | S2be => msb 16 z
  | U4be => msb 32 z
  | U2le => msb 8 z ++ msb 8 (z / 256)
  | U4le => msb 8 z ++ msb 8 (z / 256) ++ msb 8 (z / 256 / 256) ++ msb 8 (z / 256 / 256 / 256)
  end.

(** [wire t v l]: the attribute value [v] of type [t] is written as the bits [l] *)
Inductive wire : ty -> pyval -> list bool -> Prop :=
| W_bits n v z : wire_number v = Some z -> wire (TBits n) v (msb (Z.to_nat n) z)
| W_flag x : wire TFlag (VBool x) [x]
| W_int f v z : wire_number v = Some z -> wire (TInt f) v (int_bits f z)
| W_bytes e x : wire (TBytes e) (VBytes x) (bytes_bits x)
| W_eos x : wire TEos (VBytes x) (bytes_bits x)
| W_str c e s x : encode_text c s = Some x -> wire (TStr c e) (VStr s) (bytes_bits x)
| W_str_eos c s x : encode_text c s = Some x -> wire (TStrEos c) (VStr s) (bytes_bits x)
| W_contents x : wire (TContents x) (VBytes x) (bytes_bits x)
| W_valid t z l : wire t (VInt z) l -> wire (TValid t z) (VInt z) l
| W_imported t v l : object_wire t v l -> wire (TImported t) v l
| W_local t v l : object_wire t v l -> wire (TLocal t) v l
| W_sized e t v l : wire t v l -> wire (TSized e t) v l
| W_switch e cs v l : case_wire cs v l -> wire (TSwitch e cs) v l
with case_wire : cases -> pyval -> list bool -> Prop :=
| W_default t v l : wire t v l -> case_wire (CDefault t) v l
| W_here k t cs v l : wire t v l -> case_wire (CCons k t cs) v l
| W_later k t cs v l : case_wire cs v l -> case_wire (CCons k t cs) v l
with list_wire : ty -> list pyval -> list bool -> Prop :=
| W_nil t : list_wire t [] []
| W_cons t v vs l ls : wire t v l -> list_wire t vs ls -> list_wire t (v :: vs) (l ++ ls)
with attr_wire : rep -> ty -> pyval -> list bool -> Prop :=
| W_once t v l : wire t v l -> attr_wire Once t v l
| W_list r t vs l : r <> Once -> list_wire t vs l -> attr_wire r t (VList vs) l
(** the attributes in order; one that is missing takes no room *)
with seq_wire : attr_list -> attrs -> list bool -> Prop :=
| W_end : seq_wire Nil [] []
| W_present x c r en t q v a l ls : attr_wire r t v l -> seq_wire q a ls -> seq_wire (Attr x c r en t q) ((x, v) :: a) (l ++ ls)
| W_missing x c r en t q a ls : seq_wire q a ls -> seq_wire (Attr x c r en t q) a ls
with object_wire : typ -> pyval -> list bool -> Prop :=
| W_object path q a l : seq_wire q (public a) l -> object_wire (Typ path q) (VObj (class_name path) a) l.
