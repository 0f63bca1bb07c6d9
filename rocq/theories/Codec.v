(** Text codecs: [bytes.decode(enc)] with the default [errors="strict"], for the four
    encodings the generated parsers name (homebrew2015.py:72 "UTF-8" and 276-291 "ascii",
    gpsdata.py "ascii", hytera/text_message_protocol.py "UTF-16LE", motorola ... "UTF-16LE").
    CPython's codecs are not part of the repository; this is our reading of them
    (Unicode standard, table 3-7 well-formed UTF-8; surrogates are rejected). *)
From Verif Require Import PyBase.

Inductive encoding := ASCII | UTF8 | UTF16LE | UTF16BE.

Definition enc_name (e : encoding) : string :=
  match e with ASCII => "ascii" | UTF8 => "utf-8" | UTF16LE => "utf-16-le" | UTF16BE => "utf-16-be" end.

Fixpoint dec_ascii (l : bytes) : option pystr :=
  match l with
  | [] => Some []
  | x :: l' => if bz x <? 128 then option_map (cons (bz x)) (dec_ascii l') else None
  end.

(** continuation byte 10xxxxxx *)
Definition cont (x : byte) : bool := (128 <=? bz x) && (bz x <? 192).

Fixpoint dec_utf8 (l : bytes) : option pystr :=
  match l with
  | [] => Some []
  | x :: l1 =>
    if bz x <? 128 then option_map (cons (bz x)) (dec_utf8 l1)
    else if bz x <? 194 then None
    else match l1 with
    | [] => None
    | y :: l2 =>
      if negb (cont y) then None
      else if bz x <? 224 then
        option_map (cons ((bz x - 192) * 64 + (bz y - 128))) (dec_utf8 l2)
      else match l2 with
      | [] => None
      | z :: l3 =>
        if negb (cont z) then None
        else if bz x <? 240 then
          let c := (bz x - 224) * 4096 + (bz y - 128) * 64 + (bz z - 128) in
          if (c <? 2048) || ((55296 <=? c) && (c <? 57344)) then None
          else option_map (cons c) (dec_utf8 l3)
        else match l3 with
        | [] => None
        | t :: l4 =>
          if negb (cont t) then None
          else if bz x <? 245 then
            let c := (bz x - 240) * 262144 + (bz y - 128) * 4096 + (bz z - 128) * 64 + (bz t - 128) in
            if (c <? 65536) || (1114111 <? c) then None
            else option_map (cons c) (dec_utf8 l4)
          else None
        end
      end
    end
  end.

(** 16-bit code units to code points; a lone surrogate is an error. *)
Fixpoint dec_units (l : list Z) : option pystr :=
  match l with
  | [] => Some []
  | u :: l1 =>
    if (55296 <=? u) && (u <? 56320) then
      match l1 with
      | v :: l2 =>
        if (56320 <=? v) && (v <? 57344)
        then option_map (cons (65536 + (u - 55296) * 1024 + (v - 56320))) (dec_units l2)
        else None
      | [] => None
      end
    else if (56320 <=? u) && (u <? 57344) then None
    else option_map (cons u) (dec_units l1)
  end.

(** pair up bytes; an odd byte at the end is an error ("truncated data") *)
Fixpoint units_le (l : bytes) : option (list Z) :=
  match l with
  | [] => Some []
  | x :: y :: l' => option_map (cons (bz x + 256 * bz y)) (units_le l')
  | [_] => None
  end.
Fixpoint units_be (l : bytes) : option (list Z) :=
  match l with
  | [] => Some []
  | x :: y :: l' => option_map (cons (256 * bz x + bz y)) (units_be l')
  | [_] => None
  end.

Definition dec_utf16le (l : bytes) : option pystr :=
  match units_le l with Some u => dec_units u | None => None end.
Definition dec_utf16be (l : bytes) : option pystr :=
  match units_be l with Some u => dec_units u | None => None end.

Definition decode_text (e : encoding) (l : bytes) : option pystr :=
  match e with
  | ASCII => dec_ascii l
  | UTF8 => dec_utf8 l
  | UTF16LE => dec_utf16le l
  | UTF16BE => dec_utf16be l
  end.

(** [b.decode(enc)] *)
Definition py_decode (e : encoding) (l : bytes) : res pystr :=
  match decode_text e l with
  | Some s => Ok s
  | None => Err (UnicodeDecodeError (enc_name e))
  end.

From Verif Require Import Runtime.
(** [(self._io.read_bytes(n)).decode(enc)] *)
Definition read_str (rt : runtime) (e : encoding) (n : Z) : M pystr :=
  x <- read_bytes rt n;; lift (py_decode e x).
Definition vstr (rt : runtime) (e : encoding) (n : Z) : M pyval :=
  x <- read_str rt e n;; ret (VStr x).
(** [(self._io.read_bytes_full()).decode(enc)] *)
Definition vstr_full (rt : runtime) (e : encoding) : M pyval :=
  x <- read_bytes_full rt;; s <- lift (py_decode e x);; ret (VStr s).
