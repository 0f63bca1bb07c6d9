(** Model of the parts of the kaitaistruct Python runtime the generated parsers call.
    The runtime is a dependency ([kaitaistruct>=0.10] in /repo/setup.cfg / pyproject) and is not part of
    the repository; what is written here is our reading of kaitaistruct 0.10 ([V010])
    and 0.11 ([V011]) and belongs to the trusted base. *)
From Verif Require Import PyBase.

(** Which supported runtime is installed. *)
Inductive runtime := V010 | V011.

(** [KaitaiStream]: the underlying [BytesIO] content and position and the bit buffer. *)
Record stream := { s_buf : bytes; s_pos : nat; s_bits : Z; s_left : Z }.

(** Parser actions; the stream state is kept also when an exception is raised. *)
Definition M (A : Type) := stream -> res A * stream.

Definition ret {A} (a : A) : M A := fun s => (Ok a, s).
Definition fail {A} (e : exn) : M A := fun s => (Err e, s).
Definition bind {A B} (m : M A) (k : A -> M B) : M B :=
  fun s => match m s with
           | (Ok a, s') => k a s'
           | (Err e, s') => (Err e, s')
           end.

Declare Scope m_scope.
Delimit Scope m_scope with m.
Notation "x <- m ;; k" := (bind m (fun x => k)) (at level 61, m at next level, right associativity) : m_scope.
Notation "m ;;; k" := (bind m (fun _ => k)) (at level 61, right associativity) : m_scope.
Open Scope m_scope.

Definition set_pos (s : stream) (p : nat) : stream :=
  {| s_buf := s_buf s; s_pos := p; s_bits := s_bits s; s_left := s_left s |}.

(** [align_to_byte]: drop the buffered bits. *)
Definition align_state (s : stream) : stream :=
  {| s_buf := s_buf s; s_pos := s_pos s; s_bits := 0; s_left := 0 |}.
Definition align_to_byte : M unit := fun s => (Ok tt, align_state s).

(** 0.11 aligns inside every byte-wise operation; 0.10 does not. *)
Definition auto_align (rt : runtime) (s : stream) : stream :=
  match rt with V010 => s | V011 => align_state s end.

(** [BytesIO.read(n)], n >= 0: what is left, at most n bytes; position advances by what was returned. *)
Definition io_read (n : Z) (s : stream) : bytes * stream :=
  let rest := skipn (s_pos s) (s_buf s) in
  let got := if blen rest <=? n then rest else firstn (Z.to_nat n) rest in
  (got, set_pos s (s_pos s + List.length got)).

(** [read_bytes(n)] without alignment: negative n is a ValueError, a short read an EOFError. *)
Definition raw_read_bytes (n : Z) : M bytes := fun s =>
  if n <? 0 then (Err ValueError, s) else
  let '(got, s') := io_read n s in
  if blen got <? n then (Err EOFError, s') else (Ok got, s').

Definition read_bytes (rt : runtime) (n : Z) : M bytes := fun s =>
  raw_read_bytes n (auto_align rt s).

(** [read_bytes_full()]: everything up to the end. *)
Definition read_bytes_full (rt : runtime) : M bytes := fun s =>
  let s := auto_align rt s in
  let rest := skipn (s_pos s) (s_buf s) in
  (Ok rest, set_pos s (s_pos s + List.length rest)).

(** Big-endian number of a byte string ([struct] formats >B >H >I, and the loop of
    [read_bits_int_be]: [res = res << 8 | byte]). *)
Definition be_int (l : bytes) : Z := fold_left (fun r x => Z.lor (Z.shiftl r 8) (bz x)) l 0.

(** Little-endian number ([struct] formats <H <I). *)
Fixpoint le_int (l : bytes) : Z :=
  match l with [] => 0 | x :: l' => bz x + 256 * le_int l' end.

Definition read_u1 rt : M Z := x <- read_bytes rt 1;; ret (be_int x).
Definition read_u2be rt : M Z := x <- read_bytes rt 2;; ret (be_int x).
Definition read_u4be rt : M Z := x <- read_bytes rt 4;; ret (be_int x).
Definition read_u2le rt : M Z := x <- read_bytes rt 2;; ret (le_int x).
Definition read_u4le rt : M Z := x <- read_bytes rt 4;; ret (le_int x).
(** two's complement, [struct] format >h *)
Definition read_s2be rt : M Z :=
  x <- read_bytes rt 2;; ret (let n := be_int x in if n <? 32768 then n else n - 65536).

(** [read_bits_int_be(n)]; note that [bits_left] is updated before the bytes are read. *)
Definition read_bits (n : Z) : M Z := fun s =>
  let needed := n - s_left s in
  let left' := (- needed) mod 8 in
  let s1 := {| s_buf := s_buf s; s_pos := s_pos s; s_bits := s_bits s; s_left := left' |} in
  if 0 <? needed then
    match raw_read_bytes ((needed - 1) / 8 + 1) s1 with
    | (Ok buf, s2) =>
        let new := be_int buf in
        let r := Z.lor (Z.shiftr new left') (Z.shiftl (s_bits s) needed) in
        (Ok r, {| s_buf := s_buf s2; s_pos := s_pos s2;
                  s_bits := Z.land new (Z.shiftl 1 left' - 1); s_left := left' |})
    | (Err e, s2) => (Err e, s2)
    end
  else
    let r := Z.shiftr (s_bits s) (- needed) in
    (Ok r, {| s_buf := s_buf s; s_pos := s_pos s;
              s_bits := Z.land (s_bits s) (Z.shiftl 1 left' - 1); s_left := left' |}).

(** [read_bits_int_be(1) != 0] *)
Definition read_flag : M bool := x <- read_bits 1;; ret (negb (x =? 0)).

(** [is_eof()]: with buffered bits never at the end; otherwise 0.10 tries to read one byte
    and steps back, 0.11 compares position and size (position never exceeds the size
    except after a seek beyond it, which no parser here performs). *)
Definition is_eof (rt : runtime) : M bool := fun s =>
  if 0 <? s_left s then (Ok false, s) else
  match rt with
  | V010 => let '(t, s1) := io_read 1 s in
            match t with [] => (Ok true, s1) | _ => (Ok false, s) end
  | V011 => (Ok (Nat.leb (List.length (s_buf s)) (s_pos s)), s)
  end.

(** [pos()], [size()], [seek(n)] *)
Definition io_pos : M Z := fun s => (Ok (Z.of_nat (s_pos s)), s).
Definition io_size : M Z := fun s => (Ok (blen (s_buf s)), s).
Definition io_seek (rt : runtime) (n : Z) : M unit := fun s =>
  (Ok tt, set_pos (auto_align rt s) (Z.to_nat n)).

(** [contents:] check of generated code:
    [x = read_bytes(n); if not x == b"...": raise ValidationNotEqualError(b"...", x, io, path)] *)
Definition expect_bytes (rt : runtime) (exp : bytes) (path : string) : M pyval :=
  x <- read_bytes rt (blen exp);;
  if bytes_eqb x exp then ret (VBytes x)
  else fail (ValidationNotEqualError (VBytes exp) (VBytes x) path).

(** [KaitaiStruct.from_bytes(b)]: a fresh stream at position 0. *)
Definition stream_of (b : bytes) : stream := {| s_buf := b; s_pos := 0; s_bits := 0; s_left := 0 |}.
Definition from_bytes {A} (m : M A) (b : bytes) : res A := fst (m (stream_of b)).

(** Lift a pure computation that may raise. *)
Definition lift {A} (r : res A) : M A := fun s => (r, s).

(** [Some]-wrapping for conditional attributes ([if cond: self.x = ...]). *)
Definition when {A} (c : bool) (m : M A) : M (option A) :=
  if c then x <- m;; ret (Some x) else ret None.
Definition some {A} (m : M A) : M (option A) := x <- m;; ret (Some x).
Definition none {A} : M (option A) := ret None.

(** ** Reading attributes
    [self.x = self._io.read_...] stores a Python value; these are the readers with the result
    wrapped as a value. *)
Definition vint (m : M Z) : M pyval := x <- m;; ret (VInt x).
Definition vbits (n : Z) : M pyval := vint (read_bits n).
Definition vflag : M pyval := x <- read_flag;; ret (VBool x).
(** [KaitaiStream.resolve_enum(E, self._io.read_...)] *)
Definition venum (E : enumdef) (m : M Z) : M pyval := x <- m;; ret (resolve_enum E x).
Definition vbytes (rt : runtime) (n : Z) : M pyval := x <- read_bytes rt n;; ret (VBytes x).
Definition vfull (rt : runtime) : M pyval := x <- read_bytes_full rt;; ret (VBytes x).
(** [self._io.align_to_byte()] before the next read *)
Definition aligned {A} (m : M A) : M A := align_to_byte;;; m.

(** A straight-line [_read]: attributes assigned one after the other, in order. *)
Fixpoint seq (l : list (string * M pyval)) : M attrs :=
  match l with
  | [] => ret []
  | (n, m) :: l' => v <- m;; a <- seq l';; ret ((n, v) :: a)
  end.

(** An object all of whose attributes are read unconditionally. *)
Definition obj (cls : string) (l : list (string * M pyval)) : M pyval :=
  a <- seq l;; ret (VObj cls a).
