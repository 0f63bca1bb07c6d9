(** C64: the size of an object, and a static bound for it computed from a definition. *)
From Verif Require Import PyBase Runtime Codec Ksy KsyDefs KsySchema.
Open Scope string_scope.
Open Scope list_scope.
Open Scope Z_scope.

(** ** Specification: how big an object is *)
(** One for every number, flag, enum member, None, text, byte string, list and object in it, plus one for every byte of
    a byte string and every character of a text.  Caches of properties count as attributes. *)
Fixpoint size (v : pyval) : Z :=
  match v with
  | VBytes l => 1 + Z.of_nat (List.length l)
  | VStr s => 1 + Z.of_nat (List.length s)
  | VList l => 1 + fold_right (fun w n => size w + n) 0 l
  | VObj _ a => 1 + fold_right (fun nw n => size (snd nw) + n) 0 a
  | _ => 1
  end.

(** ** The bound
    [Cost a c l]: a value of the type, together with the caches its reading leaves on the objects under construction,
    is at most [(a * bits + c) / 8] big if its reading took [bits] bits, and it takes at least [l]. *)
Record cost := Cost { per_bit : Z; fixed : Z; least : Z }.
(** A cached value is at most this big (checked). *)
Definition cached : Z := 2.
(** What evaluating an expression can add in caches. *)
Fixpoint expr_cost (e : expr) : Z :=
  match e with
  | EDot e _ | EIs e _ _ | EEqS e _ | ENot e | EToI e | EToS e | EDecode e _ => expr_cost e
  | EAnd a b | EOr a b | EBin _ a b | ECat a b => expr_cost a + expr_cost b
  | EIf c a b => expr_cost c + expr_cost a + expr_cost b
  | EInst _ i => inst_cost i
  | _ => 0
  end
with inst_cost (i : inst) : Z :=
  match i with IValue _ e => expr_cost e + 8 * cached | IAt _ c p _ _ => expr_cost c + expr_cost p + 8 * cached end.
(** The value of the expression is not bigger than a cache may be. *)
Fixpoint small (e : expr) : bool :=
  match e with
  | ETrue | EInt _ | EEof | ESize | EPos | EIs _ _ _ | EEqS _ _ | ENot _ | EBin _ _ _ | EToI _ | EInst _ _ => true
  | EAnd _ b | EOr _ b => small b
  | EIf _ a b => small a && small b
  | _ => false
  end.
Definition up_to (c l : Z) : Z := (c + l - 1) / l.
(** [n] elements of cost [k] with [extra] for each *)
Definition many (k : cost) (extra : Z) : Z := per_bit k + up_to (fixed k + extra) (least k).
Definition int_bits (f : intfmt) : Z := match f with U1 => 8 | U2be | U2le | S2be => 16 | U4be | U4le => 32 end.
Definition const_bits (e : expr) : Z := match e with EInt n => 8 * Z.max 0 n | _ => 0 end.
(** a sized type; one of two; an attribute and those after it *)
Definition with_expr (e : Z) (k : cost) : cost := Cost (per_bit k) (e + fixed k) (least k).
Definition exactly (e : Z) (l : Z) (k : cost) : cost := Cost (per_bit k) (e + fixed k) l.
Definition either (j k : cost) : cost := Cost (Z.max (per_bit j) (per_bit k)) (Z.max (fixed j) (fixed k)) (Z.min (least j) (least k)).
Definition repeated (r : rep) (k : cost) : cost :=
  match r with
  | Once => k
  | Eos => Cost (many k 0) 8 0
  | Times e => Cost (many k 0) (expr_cost e + 8) 0
  | Until e => Cost (many k (expr_cost e)) 8 (least k)
  end.
Definition followed (c : expr) (j k : cost) : cost :=
  Cost (Z.max (per_bit j) (per_bit k)) (expr_cost c + fixed j + fixed k) ((match c with ETrue => least j | _ => 0 end) + least k).
Fixpoint ty_cost (t : ty) : cost :=
  match t with
  | TBits n => Cost 0 8 n
  | TFlag => Cost 0 8 1
  | TInt f => Cost 0 8 (int_bits f)
  | TBytes e | TStr _ e => Cost 1 (expr_cost e + 8) (const_bits e)
  | TEos | TStrEos _ => Cost 1 8 0
  | TContents x => Cost 1 8 (8 * blen x)
  | TValid t _ => ty_cost t
  | TImported t | TLocal t => typ_cost t
  | TSized e t => exactly (expr_cost e) (const_bits e) (ty_cost t)
  | TSwitch e cs => with_expr (expr_cost e) (cases_cost cs)
  end
with cases_cost (cs : cases) : cost :=
  match cs with
  | CNil => Cost 0 0 0
  | CDefault t => ty_cost t
  | CCons _ t cs => either (ty_cost t) (cases_cost cs)
  end
with seq_cost (q : attr_list) : cost :=
  match q with
  | Nil => Cost 0 0 0
  | Attr _ c r _ t q => followed c (repeated r (ty_cost t)) (seq_cost q)
  end
with typ_cost (t : typ) : cost :=
  match t with Typ _ q => with_expr 8 (seq_cost q) end.

(** The conditions under which that is right: cached values are small, repeated elements take at least one bit, bit
    fields do not have negative widths, and no attribute is named like a cache. *)
Fixpoint expr_ok (e : expr) : bool :=
  match e with
  | EDot e _ | EIs e _ _ | EEqS e _ | ENot e | EToI e | EToS e | EDecode e _ => expr_ok e
  | EAnd a b | EOr a b | EBin _ a b | ECat a b => expr_ok a && expr_ok b
  | EIf c a b => expr_ok c && expr_ok a && expr_ok b
  | EInst _ i => inst_ok i
  | _ => true
  end
with inst_ok (i : inst) : bool :=
  match i with
  | IValue _ e => expr_ok e && small e
  | IAt _ c p _ t => expr_ok c && expr_ok p && match t with TInt _ => true | TStr _ (EInt n) => (0 <=? n) && (n <=? 1) | _ => false end
  end.
Fixpoint ty_ok (t : ty) : bool :=
  match t with
  | TBits n => 0 <=? n
  | TBytes e | TStr _ e => expr_ok e
  | TValid t _ => ty_ok t
  | TImported t | TLocal t => typ_ok t
  | TSized e t => expr_ok e && ty_ok t
  | TSwitch e cs => expr_ok e && cases_ok cs
  | _ => true
  end
with cases_ok (cs : cases) : bool :=
  match cs with CNil => true | CDefault t => ty_ok t | CCons _ t cs => ty_ok t && cases_ok cs end
with seq_ok (q : attr_list) : bool :=
  match q with
  | Nil => true
  | Attr x c r _ t q => negb (is_cache x) && expr_ok c && ty_ok t && seq_ok q &&
      match r with Once => true | Eos => 1 <=? least (ty_cost t) | Times e | Until e => expr_ok e && (1 <=? least (ty_cost t)) end
  end
with typ_ok (t : typ) : bool := match t with Typ _ q => seq_ok q end.
