(** Which definitions keep all information: a check on the syntax.  (Support for C59.) *)
From Verif Require Import PyBase Runtime Codec Ksy KsySchema.
Open Scope string_scope.
Open Scope list_scope.
Open Scope Z_scope.

(** instances are evaluated in this object or in the root *)
Definition down (sc : scope) : bool := match sc with Parent => false | _ => true end.
Fixpoint deep (e : expr) : bool :=
  match e with
  | EDot e _ | EIs e _ _ | EEqS e _ | ENot e | EToI e | EToS e | EDecode e _ => deep e
  | EAnd a b | EOr a b | EBin _ a b | ECat a b => deep a && deep b
  | EIf c a b => deep c && deep a && deep b
  | EInst sc i => down sc && deep_inst i
  | _ => true
  end
with deep_inst (i : inst) : bool := match i with IValue _ e => deep e | IAt _ c p _ t => deep c && deep p && deep_ty t end
with deep_ty (t : ty) : bool :=
  match t with
  | TBytes e | TStr _ e => deep e
  | TValid t _ => deep_ty t
  | TLocal t => deep_typ t
  | TSized e t => deep e && deep_ty t
  | TSwitch e cs => deep e && deep_cases cs
  | _ => true
  end
with deep_cases (cs : cases) : bool := match cs with CNil => true | CDefault t => deep_ty t | CCons _ t cs => deep_ty t && deep_cases cs end
with deep_rep (r : rep) : bool := match r with Times e | Until e => deep e | _ => true end
with deep_seq (q : attr_list) : bool := match q with Nil => true | Attr _ c r _ t q => deep c && deep_rep r && deep_ty t && deep_seq q end
with deep_typ (t : typ) : bool := match t with Typ _ q => deep_seq q end.

(** no instance is evaluated *)
Fixpoint no_inst (e : expr) : bool :=
  match e with
  | EDot e _ | EIs e _ _ | EEqS e _ | ENot e | EToI e | EToS e | EDecode e _ => no_inst e
  | EAnd a b | EOr a b | EBin _ a b | ECat a b => no_inst a && no_inst b
  | EIf c a b => no_inst c && no_inst a && no_inst b
  | EInst _ _ => false
  | _ => true
  end.
Definition flat (t : ty) : bool := match t with TInt _ | TStr _ (EInt _) => true | _ => false end.
(** the value depends on the objects under construction only (counting what instances leave in them) *)
Fixpoint steady (e : expr) : bool :=
  match e with
  | EEof | ESize | EPos => false
  | EDot e _ | EIs e _ _ | EEqS e _ | ENot e | EToI e | EToS e | EDecode e _ => steady e
  | EAnd a b | EOr a b | EBin _ a b | ECat a b => steady a && steady b
  | EIf c a b => steady c && steady a && steady b
  | EInst _ i => steady_inst i
  | _ => true
  end
with steady_inst (i : inst) : bool :=
  match i with IValue _ e => steady e | IAt _ c p _ t => steady c && (steady p || no_inst p) && flat t end.
Definition mild (e : expr) : bool :=
  steady e || no_inst e || match e with EBin _ a b => (steady a || no_inst a) && (steady b || no_inst b) | _ => false end.

Definition width (t : ty) : option Z :=
  match t with TBits n | TValid (TBits n) _ => if 0 <? n then Some n else None | TFlag => Some 1 | _ => None end.
Fixpoint names (q : attr_list) : list string := match q with Nil => [] | Attr x _ _ _ _ q => x :: names q end.
Definition class_of (t : ty) : option string := match t with TImported (Typ p _) | TLocal (Typ p _) => Some (class_name p) | _ => None end.
Fixpoint classes (cs : cases) : list string :=
  match cs with
  | CNil => []
  | CDefault t => match class_of t with Some c => [c] | None => [] end
  | CCons _ t cs => match class_of t with Some c => c :: classes cs | None => classes cs end
  end.
(** every case gives an object, each of another class *)
Fixpoint distinct (cs : cases) : bool :=
  match cs with
  | CNil => true
  | CDefault t => match class_of t with Some _ => true | None => false end
  | CCons _ t cs => match class_of t with Some c => negb (existsb (String.eqb c) (classes cs)) | None => false end && distinct cs
  end.

Definition at_byte (l : option Z) : bool := match l with Some 0 => true | _ => false end.
Definition step (l : option Z) (c : expr) (n : Z) : option Z :=
  match l with Some k => match c with ETrue => Some ((k + n) mod 8) | _ => if n mod 8 =? 0 then Some k else None end | None => None end.

(** [seq_keeps q l]: [l] is the number of bits read of the current byte, if known; the result is that number at the end *)
Fixpoint ty_keeps (t : ty) : bool :=
  match t with
  | TBits _ | TFlag | TSized _ _ => false
  | TInt _ | TEos | TStrEos _ | TContents _ => true
  | TBytes e | TStr _ e => mild e
  | TValid t _ => ty_keeps t
  | TImported t => typ_keeps t && deep_typ t
  | TLocal t => typ_keeps t
  | TSwitch e cs => (steady e || (mild e && distinct cs)) && cases_keep cs
  end
with cases_keep (cs : cases) : bool :=
  match cs with CNil => true | CDefault t => ty_keeps t | CCons _ t cs => ty_keeps t && cases_keep cs end
with seq_keeps (q : attr_list) (l : option Z) : option (option Z) :=
  match q with
  | Nil => Some l
  | Attr x c r en t q =>
      if negb (is_cache x) && negb (existsb (String.eqb x) (names q)) then
        match width t with
        | Some n => match r with Once => if no_inst c then seq_keeps q (step l c n) else None | _ => None end
        | None =>
            if at_byte l && ty_keeps t && ty_names t && mild c && (steady c || match r with Once => negb (can_be_left_out t) | _ => true end) &&
               match r with Once | Eos => true | Times e | Until e => mild e end
            then seq_keeps q (Some 0) else None
        end
      else None
  end
with typ_keeps (t : typ) : bool :=
  match t with Typ _ q => match seq_keeps q (Some 0) with Some l => at_byte l | None => false end end.
Definition keeps (t : typ) : bool := match t with Typ _ q => match seq_keeps q (Some 0) with Some _ => true | None => false end end.
