(** Kaitai Struct definitions (.ksy) as data, and what they mean.

    The repository keeps, beside every generated parser [x.py], the definition [x.ksy] it was generated
    from.  This file is the part of the Kaitai Struct language that those 28 files use: the syntax, and an
    interpreter over the same stream operations (Runtime.v) that the generated code calls.  It does not
    mention any parser of the model.  The definitions themselves are in KsyDefs.v; KsyProofs*.v and
    PropKsy.v show that the parsers of the model are these definitions, interpreted. *)
From Verif Require Import PyBase Runtime Codec.
From Coq Require DecimalString.
Open Scope string_scope.
Open Scope list_scope.
Open Scope Z_scope.

(** ** Syntax *)
(** [x], [_parent.x], [_root.x] *)
Inductive scope := Self | Parent | Root.
Inductive binop := Add | Sub | Shl | Shr | BAnd | EqI | Gt | Ge | Le.
(** [u1 u2be u4be u2le u4le s2be] *)
Inductive intfmt := U1 | U2be | U4be | U2le | U4le | S2be.

Inductive expr :=
| ETrue
| EInt (z : Z)
| EText (s : string)
| EAttr (sc : scope) (x : string)
| EDot (e : expr) (x : string)               (** [e.x], an attribute of a parsed object *)
| EItem                                      (** [_] in [repeat-until] *)
| EEof | ESize | EPos                        (** [_io.eof], [_io.size], [_io.pos] *)
| EIs (e : expr) (E : enumdef) (m : string)  (** [e == enum::m] *)
| EEqS (e : expr) (s : string)               (** [e == 's'] *)
| ENot (e : expr) | EAnd (a b : expr) | EOr (a b : expr)
| EBin (o : binop) (a b : expr)
| EIf (c a b : expr)                         (** [c ? a : b] *)
| EToI (e : expr)                            (** [e.to_i] *)
| EToS (e : expr)                            (** [e.to_s], of a number *)
| ECat (a b : expr)                          (** [a + b], strings *)
| EDecode (e : expr) (c : encoding)          (** [e.to_s('ASCII')] *)
| EInst (sc : scope) (i : inst)              (** the name of an instance *)
with inst :=
| IValue (x : string) (e : expr)                                                  (** [value: e] *)
| IAt (x : string) (cond pos : expr) (en : option enumdef) (t : ty)               (** [pos: p, type: t, if: cond] *)
with ty :=
| TBits (n : Z) | TFlag                      (** [b2], [b3], ...; [b1] without enum *)
| TInt (f : intfmt)
| TBytes (size : expr) | TEos                (** [size: e]; [size-eos: true] *)
| TStr (c : encoding) (size : expr) | TStrEos (c : encoding)
| TContents (x : bytes)
| TValid (t : ty) (z : Z)                    (** [valid: z] *)
| TImported (t : typ)                        (** a type of another file: own [_root], no [_parent] *)
| TLocal (t : typ)                           (** a type of the same file *)
| TSized (size : expr) (t : ty)              (** [size: e] with a type: a stream of its own *)
| TSwitch (on : expr) (cs : cases)
with cases := CNil | CDefault (t : ty) | CCons (k : key) (t : ty) (cs : cases)
with key := KInt (z : Z) | KText (s : string) | KMember (E : enumdef) (m : string)
(** [repeat: eos / expr / until] *)
with rep := Once | Eos | Times (n : expr) | Until (e : expr)
with attr_list := Nil | Attr (x : string) (cond : expr) (r : rep) (en : option enumdef) (t : ty) (rest : attr_list)
with typ := Typ (path : list string) (seq : attr_list).

(** The members of an enum in order of their values, as the compiler writes them. *)
Fixpoint insert (x : Z * string) (l : list (Z * string)) : list (Z * string) :=
  match l with [] => [x] | y :: l' => if fst x <=? fst y then x :: l else y :: insert x l' end.
Definition kenum (name : string) (members : list (Z * string)) : enumdef :=
  {| en_name := name; en_members := fold_right insert [] members |}.

(** ** Names: ["type_dmr_data"] is generated as ["TypeDmrData"] *)
Definition up (c : Ascii.ascii) : Ascii.ascii :=
  let n := Ascii.nat_of_ascii c in if (Nat.leb 97 n && Nat.leb n 122)%bool then Ascii.ascii_of_nat (n - 32) else c.
Fixpoint camel_from (start : bool) (s : string) : string :=
  match s with
  | EmptyString => EmptyString
  | String c s' => if Ascii.eqb c "_" then camel_from true s' else String (if start then up c else c) (camel_from false s')
  end.
Definition camel := camel_from true.
Definition class_name (path : list string) : string := String.concat "." (map camel path).
(** ["/types/fixed_header/seq/0"] *)
Definition digit (n : nat) : string := String (Ascii.ascii_of_nat (48 + n)) EmptyString.
Definition decimal (n : nat) : string := if Nat.ltb n 10 then digit n else (digit (n / 10) ++ digit (n mod 10))%string.
Definition attr_path (path : list string) (i : nat) : string :=
  (String.concat "" (map (fun x => "/types/" ++ x) (tl path)) ++ "/seq/" ++ decimal i)%string.

(** ** Meaning *)
(** The objects under construction: this one, its parent, ..., the root; each with the attributes and
    cached instances ("_m_x") it has so far. *)
Definition frames := list attrs.
Definition K A := frames -> M (A * frames).
Definition kret {A} (a : A) : K A := fun fs => ret (a, fs).
Definition kbind {A B} (m : K A) (f : A -> K B) : K B := fun fs => r <- m fs;; f (fst r) (snd r).
Definition io {A} (m : M A) : K A := fun fs => a <- m;; ret (a, fs).
Notation "x <~ m ;; f" := (kbind m (fun x => f)) (at level 61, m at next level, right associativity).

Definition outer (sc : scope) (fs : frames) : frames :=
  match sc with Self => fs | Parent => tl fs | Root => [last fs []] end.
Definition inner (sc : scope) (fs : frames) : frames :=
  match sc with Self => [] | Parent => firstn 1 fs | Root => removelast fs end.
Definition get (sc : scope) (x : string) : K pyval := fun fs =>
  match lookup x (hd [] (outer sc fs)) with Some v => ret (v, fs) | None => fail (AttributeError x) end.
Definition put (x : string) (v : pyval) : K unit := fun fs =>
  ret (tt, (hd [] fs ++ [(x, v)]) :: tl fs).

Definition need_int (v : pyval) : K Z := fun fs => match v with VInt z => ret (z, fs) | _ => fail TypeError end.
Definition need_bool (v : pyval) : K bool := fun fs => match v with VBool b => ret (b, fs) | _ => fail TypeError end.
Definition need_str (v : pyval) : K pystr := fun fs => match v with VStr s => ret (s, fs) | _ => fail TypeError end.
Definition binary (o : binop) (a b : Z) : pyval :=
  match o with
  | Add => VInt (a + b) | Sub => VInt (a - b) | Shl => VInt (Z.shiftl a b) | Shr => VInt (Z.shiftr a b) | BAnd => VInt (Z.land a b)
  | EqI => VBool (a =? b) | Gt => VBool (b <? a) | Ge => VBool (b <=? a) | Le => VBool (a <=? b)
  end.
(** decimal digits *)
Definition show_int (z : Z) : pystr := lit (DecimalString.NilZero.string_of_int (Z.to_int z)).
Definition to_i (v : pyval) : res Z :=
  match v with VEnum _ _ z => Ok z | VBool b => Ok (Z.b2z b) | _ => Err (AttributeError "value") end.
Definition is_bits (t : ty) : bool := match t with TBits _ | TFlag | TValid (TBits _) _ => true | _ => false end.

Section Meaning.
Context (rt : runtime).

Definition number (f : intfmt) : M Z :=
  match f with U1 => read_u1 rt | U2be => read_u2be rt | U4be => read_u4be rt | U2le => read_u2le rt | U4le => read_u4le rt | S2be => read_s2be rt end.
Definition as_enum (en : option enumdef) (m : M Z) : M pyval := match en with Some E => venum E m | None => vint m end.

(** [while not eof] / [do ... while not stop]; one turn per byte left, and one more *)
Fixpoint until_eof (body : K pyval) (n : nat) : K (list pyval) :=
  match n with
  | O => fun _ => fail OutOfFuel
  | S n' => e <~ io (is_eof rt);; if (e : bool) then kret [] else v <~ body;; l <~ until_eof body n';; kret (v :: l)
  end.
Fixpoint until (body : K pyval) (stop : pyval -> K bool) (n : nat) : K (list pyval) :=
  match n with
  | O => fun _ => fail OutOfFuel
  | S n' => v <~ body;; e <~ stop v;; if (e : bool) then kret [v] else l <~ until body stop n';; kret (v :: l)
  end.
Fixpoint times (body : K pyval) (n : nat) : K (list pyval) :=
  match n with O => kret [] | S n' => v <~ body;; l <~ times body n';; kret (v :: l) end.
Definition turns {A} (loop : nat -> K A) : K A := fun fs s => loop (S (List.length (s_buf s))) fs s.
Definition present (v : option pyval) : K pyval := fun fs => match v with Some x => ret (x, fs) | None => fail TypeError end.

(** A stream of its own for the next [n] bytes. *)
Definition substream {A} (n : Z) (m : M A) : M A := fun s =>
  match read_bytes rt n s with
  | (Err e, s') => (Err e, s')
  | (Ok x, s') => (fst (m (stream_of x)), s')
  end.

Fixpoint eval (e : expr) (item : pyval) {struct e} : K pyval :=
  match e with
  | ETrue => kret (VBool true)
  | EInt z => kret (VInt z)
  | EText s => kret (VStr (lit s))
  | EAttr sc x => get sc x
  | EDot e x => o <~ eval e item;; fun fs => match getattr x o with Some v => ret (v, fs) | None => fail (AttributeError x) end
  | EItem => kret item
  | EEof => b <~ io (is_eof rt);; kret (VBool b)
  | ESize => z <~ io io_size;; kret (VInt z)
  | EPos => z <~ io io_pos;; kret (VInt z)
  | EIs e E m => v <~ eval e item;; kret (VBool (eq_member E m v))
  | EEqS e s => v <~ eval e item;; t <~ need_str v;; kret (VBool (str_eqb t s))
  | ENot e => v <~ eval e item;; b <~ need_bool v;; kret (VBool (negb b))
  | EAnd a b => v <~ eval a item;; c <~ need_bool v;; if (c : bool) then eval b item else kret (VBool false)
  | EOr a b => v <~ eval a item;; c <~ need_bool v;; if (c : bool) then kret (VBool true) else eval b item
  | EBin o a b => v <~ eval a item;; y <~ need_int v;; w <~ eval b item;; z <~ need_int w;; kret (binary o y z)
  | EIf c a b => v <~ eval c item;; d <~ need_bool v;; if (d : bool) then eval a item else eval b item
  | EToI e => v <~ eval e item;; z <~ io (lift (to_i v));; kret (VInt z)
  | EToS e => v <~ eval e item;; z <~ need_int v;; kret (VStr (show_int z))
  | ECat a b => v <~ eval a item;; x <~ need_str v;; w <~ eval b item;; y <~ need_str w;; kret (VStr (x ++ y))
  | EDecode e c => v <~ eval e item;; fun fs => match v with VBytes x => s <- lift (py_decode c x);; ret (VStr s, fs) | _ => fail TypeError end
  | EInst sc i => fun fs => r <- run_inst i (outer sc fs);; ret (fst r, inner sc fs ++ snd r)
  end
with run_inst (i : inst) {struct i} : K pyval :=
  match i with
  | IValue x e => fun fs =>
      match lookup ("_m_" ++ x) (hd [] fs) with
      | Some v => ret (v, fs)
      | None => (v <~ eval e VNone;; _ <~ put ("_m_" ++ x) v;; kret v) fs
      end
  | IAt x c p en t => fun fs =>
      match lookup ("_m_" ++ x) (hd [] fs) with
      | Some v => ret (v, fs)
      | None =>
          (c <~ eval c VNone;; c <~ need_bool c;;
           if (c : bool) then
             back <~ io io_pos;; p <~ eval p VNone;; p <~ need_int p;; _ <~ io (io_seek rt p);;
             v <~ run_ty "" en t;; v <~ present v;; _ <~ io (io_seek rt back);; _ <~ put ("_m_" ++ x) v;; kret v
           else kret VNone) fs
      end
  end
with run_ty (loc : string) (en : option enumdef) (t : ty) {struct t} : K (option pyval) :=
  match t with
  | TBits n => v <~ io (as_enum en (read_bits n));; kret (Some v)
  | TFlag => v <~ io vflag;; kret (Some v)
  | TInt f => v <~ io (as_enum en (number f));; kret (Some v)
  | TBytes e => n <~ eval e VNone;; n <~ need_int n;; v <~ io (vbytes rt n);; kret (Some v)
  | TEos => v <~ io (vfull rt);; kret (Some v)
  | TStr c e => n <~ eval e VNone;; n <~ need_int n;; v <~ io (vstr rt c n);; kret (Some v)
  | TStrEos c => v <~ io (vstr_full rt c);; kret (Some v)
  | TContents x => v <~ io (expect_bytes rt x loc);; kret (Some v)
  | TValid t z => v <~ run_ty loc en t;; v <~ present v;; n <~ need_int v;;
      if n =? z then kret (Some v) else fun _ => fail (ValidationNotEqualError (VInt z) v loc)
  | TImported t => fun fs => r <- run_typ t [];; ret (Some (fst r), fs)
  | TLocal t => v <~ run_typ t;; kret (Some v)
  | TSized e t => n <~ eval e VNone;; n <~ need_int n;; fun fs => substream n (run_ty loc en t fs)
  | TSwitch on cs => v <~ eval on VNone;; run_cases loc en v cs
  end
with run_cases (loc : string) (en : option enumdef) (v : pyval) (cs : cases) {struct cs} : K (option pyval) :=
  match cs with
  | CNil => kret None
  | CDefault t => run_ty loc en t
  | CCons k t cs' =>
      if (match k with
          | KInt z => match v with VInt y => y =? z | _ => false end
          | KText s => match v with VStr x => str_eqb x s | _ => false end
          | KMember E m => eq_member E m v
          end)
      then run_ty loc en t else run_cases loc en v cs'
  end
with run_attrs (path : list string) (i : nat) (after_bits : bool) (q : attr_list) {struct q} : K unit :=
  match q with
  | Nil => kret tt
  | Attr x c r en t q' =>
      (* an attribute made of whole bytes starts at a byte boundary *)
      _ <~ (if after_bits && negb (is_bits t) then io align_to_byte else kret tt);;
      c <~ eval c VNone;; c <~ need_bool c;;
      _ <~ (if (c : bool) then
              v <~ run_rep (run_ty (attr_path path i) en t) r;;
              match v with Some v => put x v | None => kret tt end
            else kret tt);;
      run_attrs path (S i) (is_bits t) q'
  end
with run_rep (one : K (option pyval)) (r : rep) {struct r} : K (option pyval) :=
  match r with
  | Once => one
  | Eos => l <~ turns (until_eof (v <~ one;; present v));; kret (Some (VList l))
  | Times n => n <~ eval n VNone;; n <~ need_int n;; l <~ times (v <~ one;; present v) (Z.to_nat n);; kret (Some (VList l))
  | Until e => l <~ turns (until (v <~ one;; present v) (fun v => w <~ eval e v;; need_bool w));; kret (Some (VList l))
  end
with run_typ (t : typ) {struct t} : K pyval :=
  match t with
  | Typ path q => fun fs => r <- run_attrs path 0 false q ([] :: fs);; ret (VObj (class_name path) (hd [] (snd r)), tl (snd r))
  end.

(** Reading a file of that type; the value of an instance of an object. *)
Definition ksy_read (t : typ) : M pyval := r <- run_typ t [];; ret (fst r).
End Meaning.
