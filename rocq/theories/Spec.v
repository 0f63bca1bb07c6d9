(** Specification vocabulary: what a field of a packet is, independent of streams and parsers.
    A packet is a list of bytes; bits are numbered from 0, most significant bit of byte 0 first. *)
From Verif Require Import PyBase Codec.

(** Bit [i] of packet [b]. *)
Definition bit (b : bytes) (i : Z) : bool :=
  Z.testbit (bz (nth (Z.to_nat (i / 8)) b Byte.x00)) (7 - i mod 8).

(** The [w]-bit number written at bits [o .. o+w-1], first bit most significant. *)
Fixpoint ubits_n (b : bytes) (o : Z) (w : nat) : Z :=
  match w with
  | O => 0
  | S w' => 2 * ubits_n b o w' + Z.b2z (bit b (o + Z.of_nat w'))
  end.
Definition ubits (b : bytes) (o w : Z) : Z := ubits_n b o (Z.to_nat w).

(** The [n] bytes from byte [k] on. *)
Definition slice (b : bytes) (k n : Z) : bytes := firstn (Z.to_nat n) (skipn (Z.to_nat k) b).

(** Everything from byte [k] on. *)
Definition rest (b : bytes) (k : Z) : bytes := skipn (Z.to_nat k) b.

(** Little-endian value of a byte string. *)
Definition le_num (l : bytes) : Z := fold_right (fun x r => bz x + 256 * r) 0 l.

(** A message that starts at byte [k] has at least [c] bits inside the packet. *)
Definition fits (b : bytes) (k c : Z) : bool := 8 * k + c <=? 8 * blen b.

(** Number formats: [w]-bit unsigned big-endian, [n]-byte little-endian, 16-bit two's complement. *)
Inductive numfmt := NBe (w : Z) | NLe (n : Z) | NS16.
Definition nwidth (f : numfmt) : Z := match f with NBe w => w | NLe n => 8 * n | NS16 => 16 end.
Definition num (b : bytes) (k c : Z) (f : numfmt) : Z :=
  match f with
  | NBe w => ubits b (8 * k + c) w
  | NLe n => le_num (slice b (k + c / 8) n)
  | NS16 => let n := ubits b (8 * k + c) 16 in if n <? 32768 then n else n - 65536
  end.

(** Field kinds.  [KSub w f] is a nested object of [w] bits given by its own decoder. *)
Inductive kind :=
| KNum (f : numfmt)
| KFlag
| KEnum (E : enumdef) (f : numfmt)
| KBytes (n : Z)
| KStr (e : encoding) (n : Z)
| KMagic (l : bytes) (path : string)
| KSub (w : Z) (f : bytes -> Z -> res pyval).

Notation U w := (KNum (NBe w)).
Notation LE n := (KNum (NLe n)).
Notation Enm E w := (KEnum E (NBe w)).
Notation EnmLE E n := (KEnum E (NLe n)).

Definition kwidth (K : kind) : Z :=
  match K with
  | KNum f => nwidth f
  | KFlag => 1
  | KEnum _ f => nwidth f
  | KBytes n => 8 * n
  | KStr _ n => 8 * n
  | KMagic l _ => 8 * blen l
  | KSub w _ => w
  end.

(** Decoding one field at bit [c] of the message that starts at byte [k]. *)
Definition decode (b : bytes) (k c : Z) (K : kind) : res pyval :=
  match K with
  | KSub _ f => f b (k + c / 8)
  | _ =>
    if fits b k (c + kwidth K) then
      match K with
      | KNum f => Ok (VInt (num b k c f))
      | KFlag => Ok (VBool (bit b (8 * k + c)))
      | KEnum E f => Ok (resolve_enum E (num b k c f))
      | KBytes n => Ok (VBytes (slice b (k + c / 8) n))
      | KStr e n => match decode_text e (slice b (k + c / 8) n) with
                    | Some s => Ok (VStr s)
                    | None => Err (UnicodeDecodeError (enc_name e))
                    end
      | KMagic l path => let x := slice b (k + c / 8) (blen l) in
                    if bytes_eqb x l then Ok (VBytes l)
                    else Err (ValidationNotEqualError (VBytes l) (VBytes x) path)
      | KSub _ f => f b (k + c / 8)
      end
    else Err EOFError
  end.

(** A field: attribute name, bit offset in the message, kind. *)
Record field := F { f_name : string; f_off : Z; f_kind : kind }.

(** Decode the fields of a table one after the other; the first failing one decides the exception. *)
Fixpoint fields (b : bytes) (k : Z) (fs : list field) : res attrs :=
  match fs with
  | [] => Ok []
  | f :: fs' =>
    match decode b k (f_off f) (f_kind f) with
    | Ok v => match fields b k fs' with Ok a => Ok ((f_name f, v) :: a) | Err e => Err e end
    | Err e => Err e
    end
  end.

(** An object of class [cls] given by a table. *)
Definition object (cls : string) (fs : list field) (b : bytes) (k : Z) : res pyval :=
  rmap (VObj cls) (fields b k fs).

(** Total width of a table: the end of its last field. *)
Fixpoint fs_end (fs : list field) (c : Z) : Z :=
  match fs with [] => c | f :: fs' => fs_end fs' (f_off f + kwidth (f_kind f)) end.

(** Fields follow each other without gap or overlap, from bit [c] on. *)
Fixpoint tiles (fs : list field) (c : Z) : bool :=
  match fs with [] => true | f :: fs' => (f_off f =? c) && tiles fs' (c + kwidth (f_kind f)) end.

Declare Scope spec_scope.
Notation "'let*' x := r 'in' k" := (rbind r (fun x => k)) (at level 200, x name, r at level 100, k at level 200) : spec_scope.
Open Scope spec_scope.

(** Dispatch on a number. *)
Fixpoint select {A} (z : Z) (t : list (Z * A)) : option A :=
  match t with [] => None | (c, x) :: t' => if z =? c then Some x else select z t' end.

(** An attribute that exists only if a decoder was selected. *)
Definition optional (name : string) (f : option (bytes -> Z -> res pyval)) (b : bytes) (k : Z) : res attrs :=
  match f with
  | Some f => let* v := f b k in Ok [(name, v)]
  | None => Ok []
  end.
