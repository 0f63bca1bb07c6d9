(** Specification vocabulary for messages of variable length.  A [decoder] gets the packet and the
    byte where the message starts and gives the decoded object and the byte where the message ends. *)
From Verif Require Import PyBase Codec Spec.
Open Scope string_scope.
Open Scope list_scope.
Open Scope Z_scope.

Definition decoder := bytes -> Z -> res (pyval * Z).

(** The object when the message is the whole packet (bytes after its end are not looked at). *)
Definition stand_alone (f : decoder) (b : bytes) : res pyval := rmap fst (f b 0).

(** A message all of whose fields are given by a table. *)
Definition table (cls : string) (fs : list field) : decoder := fun b k =>
  let* a := fields b k fs in Ok (VObj cls a, k + fs_end fs 0 / 8).

(** [n] bytes from byte [p] on, for a length found in the packet. *)
Definition bytes_at (b : bytes) (p n : Z) : res bytes :=
  if n <? 0 then Err ValueError
  else if p + n <=? blen b then Ok (slice b p n)
  else Err EOFError.

(** ... decoded as text. *)
Definition text_at (e : encoding) (b : bytes) (p n : Z) : res pyval :=
  let* x := bytes_at b p n in
  match decode_text e x with
  | Some s => Ok (VStr s)
  | None => Err (UnicodeDecodeError (enc_name e))
  end.

(** The attribute [name] decoded by [f], if there is a decoder; and where it ends. *)
Definition part (name : string) (f : option decoder) (b : bytes) (k : Z) : res (attrs * Z) :=
  match f with
  | None => Ok ([], k)
  | Some f => let* r := f b k in Ok ([(name, fst r)], snd r)
  end.

