(** Specification vocabulary: writing decoded values back as bits.  Nothing here refers to the parsers;
    [table_bits] is what an encoder for a table would produce. *)
From Verif Require Import PyBase Codec CodecSpec Spec.
Open Scope list_scope.
Open Scope Z_scope.

(** The bits [o .. o+w-1] of a packet. *)
Definition bits_at (b : bytes) (o w : Z) : list bool :=
  map (fun i => bit b (o + Z.of_nat i)) (seq 0 (Z.to_nat w)).

(** A [w]-bit number, most significant bit first. *)
Definition num_bits (w z : Z) : list bool :=
  map (fun i => Z.testbit z (w - 1 - Z.of_nat i)) (seq 0 (Z.to_nat w)).
Definition byte_bits (x : byte) : list bool := num_bits 8 (bz x).
Definition bytes_bits (l : bytes) : list bool := flat_map byte_bits l.

(** [n] bytes, least significant first. *)
Fixpoint le_bytes (n : nat) (z : Z) : bytes :=
  match n with O => [] | S n' => zb (z mod 256) :: le_bytes n' (z / 256) end.

Definition fmt_bits (f : numfmt) (z : Z) : list bool :=
  match f with
  | NBe w => num_bits w z
  | NLe n => bytes_bits (le_bytes (Z.to_nat n) z)
  | NS16 => num_bits 16 (z mod 65536)
  end.

(** The number behind an enumerated value. *)
Definition wire_value (v : pyval) : option Z :=
  match v with VEnum _ _ z => Some z | VInt z => Some z | _ => None end.

(** The bits of one attribute; [None] if the value is not of the field's kind (nested objects have
    their own tables). *)
Definition value_bits (K : kind) (v : pyval) : option (list bool) :=
  match K, v with
  | KNum f, VInt z => Some (fmt_bits f z)
  | KFlag, VBool t => Some [t]
  | KEnum _ f, _ => option_map (fmt_bits f) (wire_value v)
  | KBytes _, VBytes l => Some (bytes_bits l)
  | KStr e _, VStr s => option_map bytes_bits (encode_text e s)
  | KMagic _ _, VBytes l => Some (bytes_bits l)
  | _, _ => None
  end.

(** The bits of all attributes, in order. *)
Fixpoint table_bits (fs : list field) (a : attrs) : option (list bool) :=
  match fs, a with
  | [], [] => Some []
  | f :: fs', (n, v) :: a' =>
      if String.eqb n (f_name f) then
        match value_bits (f_kind f) v, table_bits fs' a' with Some x, Some y => Some (x ++ y) | _, _ => None end
      else None
  | _, _ => None
  end.
