(** Text encoders, as the specification counterpart of the decoders in Codec.v:
    Unicode text (a list of code points) to bytes. [None]: not encodable
    (a surrogate, a number beyond U+10FFFF, non-ASCII text in ASCII). *)
From Verif Require Import PyBase Codec.
Open Scope list_scope.
Open Scope Z_scope.

Definition surrogate (c : Z) : bool := (55296 <=? c) && (c <? 57344).

Definition enc_ascii_cp (c : Z) : option bytes :=
  if (0 <=? c) && (c <? 128) then Some [zb c] else None.

Definition enc_utf8_cp (c : Z) : option bytes :=
  if (c <? 0) || surrogate c then None
  else if c <? 128 then Some [zb c]
  else if c <? 2048 then Some [zb (192 + c / 64); zb (128 + c mod 64)]
  else if c <? 65536 then Some [zb (224 + c / 4096); zb (128 + c / 64 mod 64); zb (128 + c mod 64)]
  else if c <? 1114112 then
    Some [zb (240 + c / 262144); zb (128 + c / 4096 mod 64); zb (128 + c / 64 mod 64); zb (128 + c mod 64)]
  else None.

(** 16-bit code units of a code point *)
Definition units_of (c : Z) : option (list Z) :=
  if (c <? 0) || surrogate c then None
  else if c <? 65536 then Some [c]
  else if c <? 1114112 then Some [55296 + (c - 65536) / 1024; 56320 + (c - 65536) mod 1024]
  else None.
Definition unit_le (u : Z) : bytes := [zb (u mod 256); zb (u / 256)].
Definition unit_be (u : Z) : bytes := [zb (u / 256); zb (u mod 256)].

Definition encode_cp (e : encoding) (c : Z) : option bytes :=
  match e with
  | ASCII => enc_ascii_cp c
  | UTF8 => enc_utf8_cp c
  | UTF16LE => option_map (flat_map unit_le) (units_of c)
  | UTF16BE => option_map (flat_map unit_be) (units_of c)
  end.

Fixpoint encode_text (e : encoding) (s : pystr) : option bytes :=
  match s with
  | [] => Some []
  | c :: s' => match encode_cp e c, encode_text e s' with
               | Some x, Some y => Some (x ++ y)
               | _, _ => None
               end
  end.

(** A code point that every Unicode encoding form can represent. *)
Definition scalar (c : Z) : bool := (0 <=? c) && (c <? 1114112) && negb (surrogate c).
