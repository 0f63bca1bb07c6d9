(** Python values, exceptions and results used by the model.
    This file models no repository code by itself; it fixes the vocabulary. *)
From Coq Require Export List ZArith Bool String Ascii.
From Coq Require Strings.Byte.
From Coq Require Export Lia.
Export ListNotations.
Notation byte := Byte.byte.
Open Scope Z_scope.

(** Python [bytes]. *)
Definition bytes := list byte.

(** The integer value (0..255) of one element of a [bytes] object. *)
Definition bz (x : byte) : Z := Z.of_N (Byte.to_N x).

(** Inverse of [bz]; numbers are reduced modulo 256. *)
Definition zb (z : Z) : byte :=
  match Byte.of_N (Z.to_N (z mod 256)) with Some x => x | None => Byte.x00 end.

(** Literal helper: bytes from numbers. *)
Definition B (l : list Z) : bytes := map zb l.

(** Length of a bytes object, as a Python int. *)
Definition blen (b : bytes) : Z := Z.of_nat (List.length b).

(** A Python [str] is a list of code points. *)
Definition pystr := list Z.

(** Literal helper: Python string from an ASCII literal. *)
Fixpoint lit (s : string) : pystr :=
  match s with
  | EmptyString => []
  | String c s' => Z.of_N (N_of_ascii c) :: lit s'
  end.

(** Literal helper: bytes of an ASCII literal. *)
Fixpoint blit (s : string) : bytes :=
  match s with
  | EmptyString => []
  | String c s' => byte_of_ascii c :: blit s'
  end.

Fixpoint zlist_eqb (a b : list Z) : bool :=
  match a, b with
  | [], [] => true
  | x :: a', y :: b' => (x =? y) && zlist_eqb a' b'
  | _, _ => false
  end.

Fixpoint bytes_eqb (a b : bytes) : bool :=
  match a, b with
  | [], [] => true
  | x :: a', y :: b' => Byte.eqb x y && bytes_eqb a' b'
  | _, _ => false
  end.

(** The values that parsed objects hold.  An object is its class name with the
    attributes that have been assigned, in assignment order; an attribute that
    was never assigned does not occur.  The bookkeeping attributes [_io],
    [_parent], [_root] are not listed here (every object has them; see
    PrettyModel.v where they matter). *)
Inductive pyval : Type :=
| VNone
| VInt (z : Z)
| VBool (b : bool)
| VBytes (l : bytes)
| VStr (s : pystr)
| VEnum (cls name : string) (z : Z)
| VList (l : list pyval)
| VObj (cls : string) (attrs : list (string * pyval)).

Definition attrs := list (string * pyval).

(** Exceptions.  [ValidationNotEqualError expected actual path] is
    kaitaistruct's; [OutOfFuel] exists only in the model (exhausted loop fuel). *)
Inductive exn : Type :=
| EOFError
| ValidationNotEqualError (expected actual : pyval) (path : string)
| UnicodeDecodeError (enc : string)
| ValueError
| AttributeError (name : string)
| TypeError
| OverflowError
| OutOfFuel.

Inductive res (A : Type) : Type :=
| Ok (a : A)
| Err (e : exn).
Arguments Ok {A} a.
Arguments Err {A} e.

Definition rbind {A B} (r : res A) (k : A -> res B) : res B :=
  match r with Ok a => k a | Err e => Err e end.

Definition rmap {A B} (f : A -> B) (r : res A) : res B :=
  match r with Ok a => Ok (f a) | Err e => Err e end.

(** Attribute lookup on an object; [None]: the attribute is not set. *)
Fixpoint lookup (n : string) (a : attrs) : option pyval :=
  match a with
  | [] => None
  | (m, v) :: a' => if String.eqb n m then Some v else lookup n a'
  end.

Definition getattr (n : string) (v : pyval) : option pyval :=
  match v with VObj _ a => lookup n a | _ => None end.

(** An [enum.Enum] class: its name and its members (value, name) in source order. *)
Record enumdef := { en_name : string; en_members : list (Z * string) }.

Fixpoint en_find (l : list (Z * string)) (z : Z) : option string :=
  match l with
  | [] => None
  | (c, n) :: l' => if z =? c then Some n else en_find l' z
  end.

Fixpoint en_code (l : list (Z * string)) (n : string) : option Z :=
  match l with
  | [] => None
  | (c, m) :: l' => if String.eqb n m then Some c else en_code l' n
  end.

(** [KaitaiStream.resolve_enum(E, z)]: the member, or the plain number. *)
Definition resolve_enum (E : enumdef) (z : Z) : pyval :=
  match en_find (en_members E) z with
  | Some n => VEnum (en_name E) n z
  | None => VInt z
  end.

(** [v == E.n] for an enum member [E.n] (plain [Enum]: never equal to an int). *)
Definition eq_member (E : enumdef) (n : string) (v : pyval) : bool :=
  match v with
  | VEnum c m _ => String.eqb c (en_name E) && String.eqb m n
  | _ => false
  end.

(** Decidable equality of plain data values (used by validations). *)
Definition str_eqb (s : pystr) (t : string) : bool := zlist_eqb s (lit t).

(** An optional attribute: [if cond: self.name = ...]. *)
Definition opt (n : string) (v : option pyval) : attrs :=
  match v with Some x => [(n, x)] | None => [] end.
