(** What a format definition promises about the objects read with it: which attributes they have, in which
    order, and which Python values these can be.  (Specification for C58; uses the syntax of Ksy.v and not
    its interpreter.) *)
From Verif Require Import PyBase Runtime Codec Ksy.
Open Scope string_scope.
Open Scope list_scope.
Open Scope Z_scope.

(** A number below [bound], or if the attribute has an enum: a member of the enum with its value, or the plain
    number if the enum has no member for it. *)
Definition number_or_member (en : option enumdef) (lo hi : Z) (v : pyval) : Prop :=
  match en with
  | None => exists z, v = VInt z /\ lo <= z < hi
  | Some E => (exists m z, v = VEnum (en_name E) m z /\ In (z, m) (en_members E) /\ lo <= z < hi) \/
              (exists z, v = VInt z /\ ~ In z (map fst (en_members E)) /\ lo <= z < hi)
  end.
Definition range (f : intfmt) : Z * Z :=
  match f with U1 => (0, 2 ^ 8) | U2be | U2le => (0, 2 ^ 16) | U4be | U4le => (0, 2 ^ 32) | S2be => (- 2 ^ 15, 2 ^ 15) end.

(** [switch-on] without a default leaves the attribute out if no case matches. *)
Fixpoint can_be_left_out (t : ty) : bool :=
  match t with
  | TSized _ t => can_be_left_out t
  | TSwitch _ cs => cases_left_out cs
  | _ => false
  end
with cases_left_out (cs : cases) : bool :=
  match cs with
  | CNil => true
  | CDefault t => can_be_left_out t
  | CCons _ t cs => can_be_left_out t || cases_left_out cs
  end.

(** Caches of instances ("_m_x") are not attributes of the definition. *)
Definition is_cache (x : string) : bool := String.prefix "_m_" x.
Definition public (a : attrs) : attrs := filter (fun nv => negb (is_cache (fst nv))) a.

(** No attribute is named like a cache. *)
Fixpoint ty_names (t : ty) : bool :=
  match t with TValid t _ => ty_names t | TImported t | TLocal t => typ_names t | TSized _ t => ty_names t | TSwitch _ cs => cases_names cs | _ => true end
with cases_names (cs : cases) : bool :=
  match cs with CNil => true | CDefault t => ty_names t | CCons _ t cs => ty_names t && cases_names cs end
with seq_names (q : attr_list) : bool :=
  match q with Nil => true | Attr x _ _ _ t q => negb (is_cache x) && ty_names t && seq_names q end
with typ_names (t : typ) : bool := match t with Typ _ q => seq_names q end.

(** [typed en t v]: [v] is a value of an attribute with [type: t] and [enum: en] *)
Inductive typed : option enumdef -> ty -> pyval -> Prop :=
| T_bits en n v : number_or_member en 0 (2 ^ Z.max 0 n) v -> typed en (TBits n) v
| T_flag en b : typed en TFlag (VBool b)
| T_int en f v : number_or_member en (fst (range f)) (snd (range f)) v -> typed en (TInt f) v
| T_bytes en e x : (forall n, e = EInt n -> blen x = n) -> typed en (TBytes e) (VBytes x)
| T_eos en x : typed en TEos (VBytes x)
| T_str en c e s : typed en (TStr c e) (VStr s)
| T_str_eos en c s : typed en (TStrEos c) (VStr s)
| T_contents en x : typed en (TContents x) (VBytes x)
| T_valid en t z : typed en t (VInt z) -> typed en (TValid t z) (VInt z)
| T_imported en t v : object_of t v -> typed en (TImported t) v
| T_local en t v : object_of t v -> typed en (TLocal t) v
| T_sized en e t v : typed en t v -> typed en (TSized e t) v
| T_switch en e cs v : one_of en cs v -> typed en (TSwitch e cs) v
with one_of : option enumdef -> cases -> pyval -> Prop :=
| O_default en t v : typed en t v -> one_of en (CDefault t) v
| O_here en k t cs v : typed en t v -> one_of en (CCons k t cs) v
| O_later en k t cs v : one_of en cs v -> one_of en (CCons k t cs) v
(** with [repeat]: a list *)
with occurs : rep -> option enumdef -> ty -> pyval -> Prop :=
| R_once en t v : typed en t v -> occurs Once en t v
| R_list r en t l : r <> Once -> all_typed en t l -> occurs r en t (VList l)
with all_typed : option enumdef -> ty -> list pyval -> Prop :=
| L_nil en t : all_typed en t []
| L_cons en t v l : typed en t v -> all_typed en t l -> all_typed en t (v :: l)
(** the attributes in the order of [seq]; one with a condition can be missing *)
with has_attributes : attr_list -> attrs -> Prop :=
| A_nil : has_attributes Nil []
| A_present x c r en t q v a : occurs r en t v -> has_attributes q a -> has_attributes (Attr x c r en t q) ((x, v) :: a)
| A_missing x c r en t q a : c <> ETrue \/ (r = Once /\ can_be_left_out t = true) -> has_attributes q a -> has_attributes (Attr x c r en t q) a
with object_of : typ -> pyval -> Prop :=
| An_object path q a : has_attributes q (public a) -> object_of (Typ path q) (VObj (class_name path) a).
