(** Which packets a format definition describes: a grammar over bits.  (Specification for C61; uses the syntax of Ksy.v and not its
    interpreter; there is no stream and no reading.)

    A derivation builds an object and its bits together, attribute by attribute.  In the context of an attribute are the attributes
    before it ([a]), the objects around it ([fs], innermost first), the whole packet ([packet]) and the bits from there to the end of
    the packet ([ahead], or [l ++ rest]).  The value of an instance is what its expression gives there and then: there are no caches. *)
From Verif Require Import PyBase Runtime Codec CodecSpec Spec Ksy KsySchema KsyWire.
Open Scope string_scope.
Open Scope list_scope.
Open Scope Z_scope.

Definition and_then {A B} (x : option A) (f : A -> option B) : option B := match x with Some a => f a | None => None end.
Definition int_of (v : pyval) : option Z := match v with VInt z => Some z | _ => None end.
Definition bool_of (v : pyval) : option bool := match v with VBool b => Some b | _ => None end.
Definition str_of (v : pyval) : option pystr := match v with VStr s => Some s | _ => None end.
Definition ints (f : Z -> Z -> pyval) (x y : option pyval) : option pyval :=
  match x, y with Some (VInt a), Some (VInt b) => Some (f a b) | _, _ => None end.

(** The attribute value of a number. *)
Definition numeral (en : option enumdef) (z : Z) : pyval := match en with Some E => resolve_enum E z | None => VInt z end.

Section Value.
Context (packet : bytes) (ahead : list bool).
(** What stands at byte [p] of the packet: a number or a text of fixed length (nothing else is looked up by position while reading). *)
Definition found (en : option enumdef) (t : ty) (p : Z) : option pyval :=
  match t with
  | TInt U1 => if (0 <=? p) && (p + 1 <=? blen packet) then Some (numeral en (ubits packet (8 * p) 8)) else None
  | TInt U2be => if (0 <=? p) && (p + 2 <=? blen packet) then Some (numeral en (ubits packet (8 * p) 16)) else None
  | TStr c (EInt n) => if (0 <=? p) && (0 <=? n) && (p + n <=? blen packet) then and_then (decode_text c (slice packet p n)) (fun s => Some (VStr s)) else None
  | _ => None
  end.
(** The value of an expression, and of an instance; [None] if it has none. *)
Fixpoint value (fs : frames) (item : pyval) (e : expr) : option pyval :=
  match e with
  | ETrue => Some (VBool true)
  | EInt z => Some (VInt z)
  | EText s => Some (VStr (lit s))
  | EAttr Self x => lookup x (hd [] fs)
  | EAttr Parent x => lookup x (hd [] (tl fs))
  | EAttr Root x => lookup x (last fs [])
  | EDot e x => and_then (value fs item e) (getattr x)
  | EItem => Some item
  | EEof => Some (VBool (match ahead with [] => true | _ => false end))
  | ESize => Some (VInt (blen packet))
  | EPos => Some (VInt (blen packet - Z.of_nat (List.length ahead) / 8))
  | EIs e E m => and_then (value fs item e) (fun v => Some (VBool (eq_member E m v)))
  | EEqS e s => and_then (value fs item e) (fun v => and_then (str_of v) (fun t => Some (VBool (str_eqb t s))))
  | ENot e => and_then (value fs item e) (fun v => and_then (bool_of v) (fun b => Some (VBool (negb b))))
  | EAnd a b => and_then (value fs item a) (fun v => and_then (bool_of v) (fun c => if (c : bool) then value fs item b else Some (VBool false)))
  | EOr a b => and_then (value fs item a) (fun v => and_then (bool_of v) (fun c => if (c : bool) then Some (VBool true) else value fs item b))
  | EIf c a b => and_then (value fs item c) (fun v => and_then (bool_of v) (fun d => if (d : bool) then value fs item a else value fs item b))
  | EBin o a b =>
      match o with
      | Add => ints (fun x y => VInt (x + y)) (value fs item a) (value fs item b)
      | Sub => ints (fun x y => VInt (x - y)) (value fs item a) (value fs item b)
      | Shl => ints (fun x y => VInt (Z.shiftl x y)) (value fs item a) (value fs item b)
      | Shr => ints (fun x y => VInt (Z.shiftr x y)) (value fs item a) (value fs item b)
      | BAnd => ints (fun x y => VInt (Z.land x y)) (value fs item a) (value fs item b)
      | EqI => ints (fun x y => VBool (x =? y)) (value fs item a) (value fs item b)
      | Gt => ints (fun x y => VBool (y <? x)) (value fs item a) (value fs item b)
      | Ge => ints (fun x y => VBool (y <=? x)) (value fs item a) (value fs item b)
      | Le => ints (fun x y => VBool (x <=? y)) (value fs item a) (value fs item b)
      end
  | EToI e => and_then (value fs item e) (fun v => match v with VEnum _ _ z => Some (VInt z) | VBool b => Some (VInt (Z.b2z b)) | _ => None end)
  | EToS e => and_then (value fs item e) (fun v => and_then (int_of v) (fun z => Some (VStr (show_int z))))
  | ECat a b => and_then (value fs item a) (fun v => and_then (str_of v) (fun x => and_then (value fs item b) (fun w => and_then (str_of w) (fun y => Some (VStr (x ++ y))))))
  | EDecode e c => and_then (value fs item e) (fun v => match v with VBytes x => and_then (decode_text c x) (fun s => Some (VStr s)) | _ => None end)
  | EInst Self i => inst_value fs i
  | EInst Parent i => inst_value (tl fs) i
  | EInst Root i => inst_value [last fs []] i
  end
with inst_value (fs : frames) (i : inst) : option pyval :=
  match i with
  | IValue _ e => value fs VNone e
  | IAt _ c p en t => and_then (value fs VNone c) (fun v => and_then (bool_of v) (fun d =>
      if (d : bool) then and_then (value fs VNone p) (fun w => and_then (int_of w) (found en t)) else Some VNone))
  end.
End Value.

Definition is_key (k : key) (v : pyval) : bool :=
  match k with
  | KInt z => match v with VInt y => y =? z | _ => false end
  | KText s => match v with VStr x => str_eqb x s | _ => false end
  | KMember E m => eq_member E m v
  end.
Definition named (x : string) (v : option pyval) : attrs := match v with Some v => [(x, v)] | None => [] end.

Section Grammar.
Context (packet : bytes).
(** [made fs en t v l rest]: at this place the bits [l], followed by the bits [rest], are a value [v] of type [t]; no value ([None]) if
    no case of a switch applies *)
Inductive made : frames -> option enumdef -> ty -> option pyval -> list bool -> list bool -> Prop :=
| G_bits fs en n z rest : 0 <= z < 2 ^ n -> made fs en (TBits n) (Some (numeral en z)) (msb (Z.to_nat n) z) rest
| G_flag fs en x rest : made fs en TFlag (Some (VBool x)) [x] rest
| G_int fs en f z rest : fst (range f) <= z < snd (range f) -> made fs en (TInt f) (Some (numeral en z)) (int_bits f z) rest
| G_bytes fs en e x rest : value packet (bytes_bits x ++ rest) fs VNone e = Some (VInt (blen x)) -> made fs en (TBytes e) (Some (VBytes x)) (bytes_bits x) rest
| G_eos fs en x : made fs en TEos (Some (VBytes x)) (bytes_bits x) []
| G_str fs en c e s x rest : value packet (bytes_bits x ++ rest) fs VNone e = Some (VInt (blen x)) -> encode_text c s = Some x -> made fs en (TStr c e) (Some (VStr s)) (bytes_bits x) rest
| G_str_eos fs en c s x : encode_text c s = Some x -> made fs en (TStrEos c) (Some (VStr s)) (bytes_bits x) []
| G_contents fs en x rest : made fs en (TContents x) (Some (VBytes x)) (bytes_bits x) rest
| G_valid fs en t z l rest : made fs en t (Some (VInt z)) l rest -> made fs en (TValid t z) (Some (VInt z)) l rest
| G_imported fs en t v l rest : made_object [] t v l rest -> made fs en (TImported t) (Some v) l rest
| G_local fs en t v l rest : made_object fs t v l rest -> made fs en (TLocal t) (Some v) l rest
| G_switch fs en e cs k v l rest : value packet (l ++ rest) fs VNone e = Some k -> made_case fs en k cs v l rest -> made fs en (TSwitch e cs) v l rest
(** the first case that applies *)
with made_case : frames -> option enumdef -> pyval -> cases -> option pyval -> list bool -> list bool -> Prop :=
| G_no_case fs en k rest : made_case fs en k CNil None [] rest
| G_default fs en k t v l rest : made fs en t v l rest -> made_case fs en k (CDefault t) v l rest
| G_here fs en k i t cs v l rest : is_key i k = true -> made fs en t v l rest -> made_case fs en k (CCons i t cs) v l rest
| G_later fs en k i t cs v l rest : is_key i k = false -> made_case fs en k cs v l rest -> made_case fs en k (CCons i t cs) v l rest
(** repetitions: a given number of times, to the end of the packet, or until a condition holds *)
with made_times : frames -> option enumdef -> ty -> list pyval -> list bool -> list bool -> Prop :=
| G_done fs en t rest : made_times fs en t [] [] rest
| G_again fs en t v vs l ls rest : made fs en t (Some v) l (ls ++ rest) -> made_times fs en t vs ls rest -> made_times fs en t (v :: vs) (l ++ ls) rest
with made_all : frames -> option enumdef -> ty -> list pyval -> list bool -> Prop :=
| G_end fs en t : made_all fs en t [] []
| G_more fs en t v vs l ls : l <> [] -> made fs en t (Some v) l ls -> made_all fs en t vs ls -> made_all fs en t (v :: vs) (l ++ ls)
with made_until : frames -> option enumdef -> ty -> expr -> list pyval -> list bool -> list bool -> Prop :=
| G_stop fs en t e v l rest : made fs en t (Some v) l rest -> value packet rest fs v e = Some (VBool true) -> made_until fs en t e [v] l rest
| G_go_on fs en t e v vs l ls rest : l <> [] -> made fs en t (Some v) l (ls ++ rest) -> value packet (ls ++ rest) fs v e = Some (VBool false) ->
    made_until fs en t e vs ls rest -> made_until fs en t e (v :: vs) (l ++ ls) rest
with made_attr : frames -> rep -> option enumdef -> ty -> option pyval -> list bool -> list bool -> Prop :=
| G_once fs en t v l rest : made fs en t v l rest -> made_attr fs Once en t v l rest
| G_times fs en t e n vs l rest : value packet (l ++ rest) fs VNone e = Some (VInt n) -> List.length vs = Z.to_nat n -> made_times fs en t vs l rest -> made_attr fs (Times e) en t (Some (VList vs)) l rest
| G_all fs en t vs l : made_all fs en t vs l -> made_attr fs Eos en t (Some (VList vs)) l []
| G_until fs en t e vs l rest : made_until fs en t e vs l rest -> made_attr fs (Until e) en t (Some (VList vs)) l rest
(** the attributes after [a]; one whose condition does not hold is left out *)
with made_seq : frames -> attrs -> attr_list -> attrs -> list bool -> list bool -> Prop :=
| G_nil fs a rest : made_seq fs a Nil [] [] rest
| G_present fs a x c r en t q v new l ls rest :
    value packet (l ++ ls ++ rest) (a :: fs) VNone c = Some (VBool true) -> made_attr (a :: fs) r en t v l (ls ++ rest) -> made_seq fs (a ++ named x v) q new ls rest ->
    made_seq fs a (Attr x c r en t q) (named x v ++ new) (l ++ ls) rest
| G_absent fs a x c r en t q new l rest :
    value packet (l ++ rest) (a :: fs) VNone c = Some (VBool false) -> made_seq fs a q new l rest -> made_seq fs a (Attr x c r en t q) new l rest
with made_object : frames -> typ -> pyval -> list bool -> list bool -> Prop :=
| G_object fs path q a l rest : made_seq fs [] q a l rest -> made_object fs (Typ path q) (VObj (class_name path) a) l rest.
End Grammar.

(** A parsed object without the values of instances that have been computed so far, which Python objects keep in attributes [_m_...]. *)
Fixpoint without_caches (v : pyval) : pyval :=
  match v with
  | VObj c a => VObj c ((fix go (a : attrs) : attrs := match a with [] => [] | (x, w) :: r => if is_cache x then go r else (x, without_caches w) :: go r end) a)
  | VList l => VList (map without_caches l)
  | _ => v
  end.
