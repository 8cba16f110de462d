(** Evaluation of a schema module: Python semantics of the subset in
    [Py.Syntax], with the pyasn1 type-construction API built in.

    Simplifications, all checked by the evaluator itself (it gets [Stuck] when a
    module leaves the modelled fragment, and [Load] proves that none does):
    - pyasn1 schema objects are immutable values; the only in-place mutation,
      [name[...]... = v], rewrites the object bound to the module variable [name];
    - dict literals only occur as [NAME = {...}]; a dict is identified by the
      module and variable it was first bound to;
    - attributes are set on classes of the module being executed only. *)
From Coq Require Import List String Ascii ZArith NArith Bool.
From Verif Require Import Py.Syntax Asn1.Types.
Import ListNotations.
Open Scope string_scope.
Open Scope list_scope.

(** ** Results *)

(** [Raise] = the Python code raises an exception; [Stuck] = outside the model. *)
Inductive r (A : Type) := OK (a : A) | Raise (s : string) | Stuck (s : string).
Arguments OK {A}. Arguments Raise {A}. Arguments Stuck {A}.
Definition bind {A B} (x : r A) (f : A -> r B) : r B :=
  match x with OK a => f a | Raise s => Raise s | Stuck s => Stuck s end.
Notation "'do' x <- e ; f" := (bind e (fun x => f)) (at level 200, x pattern, e at level 100, f at level 200).
Fixpoint mapM {A B} (f : A -> r B) (l : list A) : r (list B) :=
  match l with
  | [] => OK []
  | a :: l' => do b <- f a; do bs <- mapM f l'; OK (b :: bs)
  end.
Definition of_opt {A} (s : string) (o : option A) : r A :=
  match o with Some a => OK a | None => Raise s end.

(** ** Python values *)

(** A class: a pyasn1 class (by its qualified name) or one defined in a module. *)
Inductive cref := CBuiltin (n : string) | CUser (m : string) (n : string).

(** Keys of registries: hashable pyasn1 values used as dict keys. *)
Inductive key := KeyOid (arcs : list N) | KeyInt (z : Z).

Inductive pyval :=
| PNone
| PInt (z : Z)
| PBool (b : bool)
| PInf                                           (* float('inf') *)
| PStr (s : string)
| PBytes (b : list N)
| PTuple (l : list pyval)
| PList (l : list pyval)
| PDict (d : did)
| PModule (m : string)                           (* a pyasn1_modules module *)
| PLib (m : string)                              (* a library module *)
| PBuiltin (n : string)                          (* a library function or class of no pyasn1 type *)
| PClass (c : cref)
| PInst (t : asn1) (v : option aval)             (* pyasn1 schema object / value object *)
| PTag (t : tag)
| PTagSet (l : list tag)
| PCons (c : cons)
| PNamedVals (l : list (string * Z))
| PNamedStrs (l : list (string * string))        (* NamedValues whose "numbers" are strings *)
| PField (f : field)
| PFields (l : list field)
| POpen (n : string) (d : did)
| PBound (o : pyval) (m : string)                (* bound method *)
| PFun (m : string) (params : list string) (va : option string) (body : list stmt).

Definition ns := list (string * pyval).
Record classdef := mkC { c_base : cref; c_attrs : ns }.
(** Registry contents: key, type object (with its value, if any). *)
Definition items := list (key * (asn1 * option aval)).
(** What executing a module leaves behind: its namespace, its classes, and the
    registry updates it performed, in order ([did] = updated dict). *)
Record modres := mkR { m_ns : ns; m_cls : list (string * classdef); m_log : list (did * items) }.

Fixpoint lookup {A} (l : list (string * A)) (x : string) : option A :=
  match l with
  | [] => None
  | (y, v) :: l' => if String.eqb x y then Some v else lookup l' x
  end.

(** ** Environment of an execution *)
Record env := mkE {
  e_mod : string;
  e_imp : string -> option modres;               (* finished modules *)
  e_loc : ns;                                    (* function / class body locals *)
  e_ns : ns;                                     (* module globals *)
  e_cls : list (string * classdef)
}.

(** ** Built-in pyasn1 classes *)

Definition uni (n : N) (c : bool) : list tag := [mkTag Universal c n].

(** pyasn1.type.univ / char / useful class -> base kind and tag set. *)
Definition builtin_prim (n : string) : option (prim * list tag) :=
  let st k n := Some (KStr k, uni n false) in
  if String.eqb n "univ.Boolean" then Some (KBool, uni 1 false)
  else if String.eqb n "univ.Integer" then Some (KInt, uni 2 false)
  else if String.eqb n "univ.BitString" then Some (KBits, uni 3 false)
  else if String.eqb n "univ.OctetString" then Some (KOcts, uni 4 false)
  else if String.eqb n "univ.Null" then Some (KNull, uni 5 false)
  else if String.eqb n "univ.ObjectIdentifier" then Some (KOid, uni 6 false)
  else if String.eqb n "univ.Enumerated" then Some (KEnum, uni 10 false)
  else if String.eqb n "univ.Any" then Some (KAny, [])
  else if String.eqb n "useful.ObjectDescriptor" then st SObjDesc 7%N
  else if String.eqb n "char.UTF8String" then st SUTF8 12%N
  else if String.eqb n "char.NumericString" then st SNumeric 18%N
  else if String.eqb n "char.PrintableString" then st SPrintable 19%N
  else if String.eqb n "char.TeletexString" then st STeletex 20%N
  else if String.eqb n "char.T61String" then st STeletex 20%N
  else if String.eqb n "char.VideotexString" then st SVideotex 21%N
  else if String.eqb n "char.IA5String" then st SIA5 22%N
  else if String.eqb n "useful.UTCTime" then st SUTCTime 23%N
  else if String.eqb n "useful.GeneralizedTime" then st SGenTime 24%N
  else if String.eqb n "char.GraphicString" then st SGraphic 25%N
  else if String.eqb n "char.VisibleString" then st SVisible 26%N
  else if String.eqb n "char.ISO646String" then st SVisible 26%N
  else if String.eqb n "char.GeneralString" then st SGeneral 27%N
  else if String.eqb n "char.UniversalString" then st SUniversal 28%N
  else if String.eqb n "char.BMPString" then st SBMP 30%N
  else None.

Inductive bkind := BPrim (k : prim) | BSeq (isset : bool) | BOf (isset : bool) | BChoice.

Definition builtin_kind (n : string) : option (bkind * list tag) :=
  match builtin_prim n with
  | Some (k, ts) => Some (BPrim k, ts)
  | None =>
      if String.eqb n "univ.Sequence" then Some (BSeq false, uni 16 true)
      else if String.eqb n "univ.Set" then Some (BSeq true, uni 17 true)
      else if String.eqb n "univ.SequenceOf" then Some (BOf false, uni 16 true)
      else if String.eqb n "univ.SetOf" then Some (BOf true, uni 17 true)
      else if String.eqb n "univ.Choice" then Some (BChoice, [])
      else None
  end.

(** Class attributes of the pyasn1 classes themselves. *)
Definition builtin_attr (n a : string) : option pyval :=
  match builtin_kind n with
  | None => None
  | Some (k, ts) =>
      if String.eqb a "tagSet" then Some (PTagSet ts)
      else if String.eqb a "subtypeSpec" then
        Some (PCons (match k with
                     | BPrim KBool => CInter [CSingle [CVInt 0; CVInt 1]]
                     | BPrim KNull => CInter [CSingle [CVStr []]]
                     | _ => CInter [] end))
      else if String.eqb a "namedValues" then
        match k with
        | BPrim KBool => Some (PNamedVals [("False", 0%Z); ("True", 1%Z)])
        | BPrim KInt | BPrim KEnum | BPrim KBits => Some (PNamedVals [])
        | _ => None
        end
      else if String.eqb a "sizeSpec" then
        match k with BPrim _ => None | _ => Some (PCons (CInter [])) end
      else if String.eqb a "componentType" then
        match k with BSeq _ | BChoice => Some (PFields []) | BOf _ => Some PNone | BPrim _ => None end
      else None
  end.

(** ** Class attribute lookup along the base chain *)

Definition find_class (E : env) (m n : string) : option classdef :=
  if String.eqb m (e_mod E) then lookup (e_cls E) n
  else match e_imp E m with Some R => lookup (m_cls R) n | None => None end.

Fixpoint class_attr (fuel : nat) (E : env) (c : cref) (a : string) : option pyval :=
  match fuel with
  | O => None
  | S fuel' =>
      match c with
      | CBuiltin n => builtin_attr n a
      | CUser m n =>
          match find_class E m n with
          | None => None
          | Some d => match lookup (c_attrs d) a with
                      | Some v => Some v
                      | None => class_attr fuel' E (c_base d) a
                      end
          end
      end
  end.

Fixpoint class_root (fuel : nat) (E : env) (c : cref) : option string :=
  match fuel with
  | O => None
  | S fuel' =>
      match c with
      | CBuiltin n => Some n
      | CUser m n => match find_class E m n with
                     | None => None
                     | Some d => class_root fuel' E (c_base d)
                     end
      end
  end.

Definition depth : nat := 64.

(** ** Converting Python values to ASN.1 values (prettyIn) *)

Definition codes (s : string) : list N := map N_of_ascii (list_ascii_of_string s).

Definition digit (c : N) : option N := if (N.leb 48 c && N.leb c 57)%bool then Some (c - 48)%N else None.

Fixpoint parse_num (acc : N) (s : list N) : option N :=
  match s with
  | [] => Some acc
  | c :: s' => match digit c with Some d => parse_num (acc * 10 + d) s' | None => None end
  end.
(** int(s) on an unsigned decimal string. *)
Definition parse_int (s : list N) : option Z :=
  match s with [] => None | _ => match parse_num 0 s with Some n => Some (Z.of_N n) | None => None end end.

(** s.split(sep) *)
Fixpoint split_on (sep : N) (s : list N) : list (list N) :=
  match s with
  | [] => [[]]
  | c :: s' =>
      if N.eqb c sep then [] :: split_on sep s'
      else match split_on sep s' with [] => [[c]] | l :: ls => (c :: l) :: ls end
  end.

(** Integers used as constraint bounds, OID arcs, ... *)
Definition as_int (v : pyval) : option Z :=
  match v with
  | PInt z => Some z
  | PBool b => Some (if b then 1 else 0)%Z
  | PInst _ (Some (VInt z)) => Some z
  | PInst _ (Some (VBool b)) => Some (if b then 1 else 0)%Z
  | _ => None
  end.

Definition as_arc (v : pyval) : option N :=
  match as_int v with Some z => if Z.leb 0 z then Some (Z.to_N z) else None | None => None end.

Fixpoint all_some {A B} (f : A -> option B) (l : list A) : option (list B) :=
  match l with
  | [] => Some []
  | a :: l' => match f a, all_some f l' with Some b, Some bs => Some (b :: bs) | _, _ => None end
  end.

(** Bits of a named-bit string such as 'a,b' (BitString.prettyIn). *)
Definition named_bits (nv : list (string * Z)) (s : list N) : option (list bool) :=
  match all_some (fun n => match find (fun p => list_eqb N.eqb (codes (fst p)) n) nv with
                           | Some (_, z) => Some (Z.to_nat z) | None => None end)
                 (split_on 44%N s) with
  | None => None
  | Some pos =>
      let top := fold_right Nat.max O pos in
      Some (map (fun i => existsb (Nat.eqb i) pos) (seq 0 (S top)))
  end.

(** prettyIn of each primitive type on the Python values the modules pass. *)
Definition pretty_in (k : prim) (nv : list (string * Z)) (x : pyval) : r aval :=
  match k with
  | KInt | KEnum =>
      match as_int x with
      | Some z => OK (VInt z)
      | None =>
          match x with
          | PStr s => match parse_int (codes s) with
                      | Some z => OK (VInt z)
                      | None => match lookup nv s with
                                | Some z => OK (VInt z)
                                | None => Raise "Can't coerce into integer" end
                      end
          | _ => Stuck "Integer value"
          end
      end
  | KBool =>
      match as_int x with
      | Some z => OK (VBool (negb (Z.eqb z 0)))
      | None => match x with
                | PStr s => match lookup nv s with
                            | Some z => OK (VBool (negb (Z.eqb z 0)))
                            | None => Raise "Can't coerce into integer" end
                | _ => Stuck "Boolean value" end
      end
  | KBits =>
      match x with
      | PStr s =>
          match codes s with
          | [] => OK (VBits [])
          | cs => match named_bits nv cs with Some b => OK (VBits b) | None => Stuck "BitString value" end
          end
      | PInst _ (Some (VBits b)) => OK (VBits b)
      | _ => Stuck "BitString value"
      end
  | KOcts | KAny =>
      match x with
      | PStr s => OK (VOcts (codes s))
      | PBytes b => OK (VOcts b)
      | PInst (TPrim KOcts _) (Some (VOcts b)) | PInst (TPrim KAny _) (Some (VOcts b)) => OK (VOcts b)
      | _ => Stuck "OctetString value"
      end
  | KNull =>
      match x with
      | PStr "" => OK VNull
      | PInst _ (Some VNull) => OK VNull
      | _ => Stuck "Null value"
      end
  | KOid =>
      match x with
      | PStr s => match all_some parse_int (split_on 46%N (codes s)) with
                  | Some zs => OK (VOid (map Z.to_N zs))
                  | None => Raise "Malformed Object ID" end
      | PTuple l | PList l =>
          match all_some as_arc l with Some a => OK (VOid a) | None => Raise "Malformed Object ID" end
      | PInst _ (Some (VOid a)) => OK (VOid a)
      | _ => Stuck "ObjectIdentifier value"
      end
  | KStr _ =>
      match x with
      | PStr s => OK (VText (codes s))
      | PInst _ (Some (VText t)) => OK (VText t)
      | _ => Stuck "string value"
      end
  end.

(** Constructing a primitive object: convert, then check subtypeSpec. *)
Definition mk_prim (k : prim) (m : meta) (x : option pyval) : r pyval :=
  match x with
  | None => OK (PInst (TPrim k m) None)
  | Some v => do a <- pretty_in k (nvals m) v;
              if csat [] (spec m) a then OK (PInst (TPrim k m) (Some a))
              else Raise "ValueConstraintError"
  end.

(** ** Constructor calls *)

Definition kw_tags (kw : ns) (dflt : pyval) : r (list tag) :=
  match match lookup kw "tagSet" with Some v => v | None => dflt end with
  | PTagSet l => OK l | _ => Stuck "tagSet" end.
Definition kw_cons (kw : ns) (a : string) (dflt : pyval) : r cons :=
  match match lookup kw a with Some v => v | None => dflt end with
  | PCons c => OK c | _ => Stuck "constraint attribute" end.

(** constraint + constraint: defined for ConstraintsIntersection/Union. *)
Definition cons_add (a b : cons) : r cons :=
  match a with
  | CInter l => OK (CInter (l ++ [b]))
  | CUnion l => OK (CUnion (l ++ [b]))
  | _ => Stuck "constraint addition"
  end.

(** ConstructedAsn1Type._moveSizeSpec. *)
Definition move_size (sp sz : cons) : r cons :=
  if ctruthy sz then if ctruthy sp then OK sz else cons_add sp sz else OK sp.

Definition known_kw (allowed : list string) (kw : ns) : bool :=
  forallb (fun p => existsb (String.eqb (fst p)) allowed) kw.

(** Calling a pyasn1 class of kind [k] whose class attributes (found along the
    base chain) are the given ones, with positional [args] and keywords [kw]. *)
Definition build (k : bkind) (aTags aSpec aNv aDef aSz aCt : option pyval) (args : list pyval) (kw : ns) : r pyval :=
  let need a o := match o with Some v => OK v | None => Stuck a end in
  do ts0 <- need "tagSet" aTags; do ts <- kw_tags kw ts0;
  do sp0 <- need "subtypeSpec" aSpec; do sp <- kw_cons kw "subtypeSpec" sp0;
  match k with
  | BPrim p =>
      if negb (known_kw ["tagSet"; "subtypeSpec"; "namedValues"; "value"] kw) then Stuck "keyword" else
      do nv <- (match p with
                | KInt | KEnum | KBits | KBool =>
                    do v <- need "namedValues" aNv;
                    match match lookup kw "namedValues" with Some v' => v' | None => v end with
                    | PNamedVals l => OK l | _ => Stuck "namedValues" end
                | _ => OK [] end);
      let m := mkM ts sp nv (CInter []) in
      match args, lookup kw "value" with
      | [], None =>
          match aDef with
          | None => mk_prim p m None
          | Some d => do a <- pretty_in p nv d; OK (PInst (TPrim p m) (Some a))
          end
      | [], Some v => mk_prim p m (Some v)
      | [v], None => mk_prim p m (Some v)
      | _, _ => Raise "TypeError: too many arguments"
      end
  | BSeq _ | BChoice | BOf _ =>
      if negb (known_kw ["tagSet"; "subtypeSpec"; "sizeSpec"; "componentType"] kw) then Stuck "keyword" else
      match args with _ :: _ => Raise "TypeError: positional argument" | [] =>
      do szc0 <- need "sizeSpec" aSz; do szc <- kw_cons [] "" szc0;
      do sz <- kw_cons kw "sizeSpec" szc0;
      do sp' <- move_size sp sz;
      do ct0 <- need "componentType" aCt;
      let ct := match lookup kw "componentType" with Some v => v | None => ct0 end in
      let m := mkM ts sp' [] szc in
      match k, ct with
      | BSeq s, PFields fs => OK (PInst (TSeq s m fs) None)
      | BChoice, PFields fs => OK (PInst (TChoice m fs) None)
      | BOf s, PInst t _ => OK (PInst (TOf s m (Some t)) None)
      | BOf s, PNone => OK (PInst (TOf s m None) None)
      | _, _ => Stuck "componentType"
      end end
  end.

(** Calling class [c]. *)
Definition instantiate (E : env) (c : cref) (args : list pyval) (kw : ns) : r pyval :=
  match class_root depth E c with
  | None => Stuck "unknown class"
  | Some root =>
      match builtin_kind root, class_attr depth E c "__init__" with
      | None, _ => Stuck "not a pyasn1 class"
      | _, Some _ => Stuck "class with __init__"
      | Some (k, _), None =>
          build k (class_attr depth E c "tagSet") (class_attr depth E c "subtypeSpec")
                (class_attr depth E c "namedValues") (class_attr depth E c "defaultValue")
                (class_attr depth E c "sizeSpec") (class_attr depth E c "componentType") args kw
      end
  end.

(** ** Methods of schema objects *)

(** inst.subtype with keywords and inst.clone with keywords (SimpleAsn1Type / ConstructedAsn1Type). *)
Definition kw_implicit (kw : ns) (ts : list tag) : r (list tag) :=
  do ts1 <- (match lookup kw "implicitTag" with
             | None => OK ts
             | Some (PTag t) => OK (tag_implicitly ts t)
             | Some _ => Stuck "implicitTag" end);
  match lookup kw "explicitTag" with
  | None => OK ts1
  | Some (PTag t) => of_opt "Can't tag with UNIVERSAL class tag" (tag_explicitly ts t)
  | Some _ => Stuck "explicitTag"
  end.

Definition inst_subtype (t : asn1) (v : option aval) (args : list pyval) (kw : ns) : r pyval :=
  let m := meta_of t in
  match args with _ :: _ => Stuck "subtype positional" | [] =>
  do ts <- kw_implicit kw (tags m);
  do sp <- (match lookup kw "subtypeSpec" with
            | None => OK (spec m)
            | Some (PCons c) => cons_add (spec m) c
            | Some _ => Stuck "subtypeSpec" end);
  match t with
  | TPrim k _ =>
      if negb (known_kw ["implicitTag"; "explicitTag"; "subtypeSpec"; "value"] kw) then Stuck "keyword" else
      let m' := mkM ts sp (nvals m) (szs m) in
      match lookup kw "value" with
      | Some x => mk_prim k m' (Some x)
      | None =>
          match v with
          | None => OK (PInst (TPrim k m') None)
          | Some a => if csat [] sp a then OK (PInst (TPrim k m') (Some a)) else Raise "ValueConstraintError"
          end
      end
  | _ =>
      if negb (known_kw ["implicitTag"; "explicitTag"; "subtypeSpec"; "sizeSpec"; "cloneValueFlag"] kw)
      then Stuck "keyword" else
      do sz <- (match lookup kw "sizeSpec" with
                | None => OK (szs m)
                | Some (PCons c) => cons_add (szs m) c
                | Some _ => Stuck "sizeSpec" end);
      do sp' <- move_size sp sz;
      let m' := mkM ts sp' (nvals m) (szs m) in
      match lookup kw "cloneValueFlag" with
      | None => OK (PInst (set_meta t m') None)
      | Some (PBool true) => OK (PInst (set_meta t m') v)
      | Some _ => Stuck "cloneValueFlag"
      end
  end end.

Definition inst_clone (t : asn1) (v : option aval) (args : list pyval) (kw : ns) : r pyval :=
  match t, args, kw with
  | TPrim k m, [], [(a, PNamedVals nv)] =>
      if String.eqb a "namedValues" then OK (PInst (TPrim k (mkM (tags m) (spec m) nv (szs m))) v)
      else Stuck "clone keyword"
  | _, _, _ => Stuck "clone"
  end.

(** ** Component assignment  inst[i] = v  (Sequence/Set/SequenceOf/SetOf/Choice) *)

Definition seq_slots (fs : list field) (v : option aval) : option (list (option aval)) :=
  match v with
  | None => Some (map (fun _ => None) fs)
  | Some (VSeq l) => Some l
  | _ => None
  end.

Fixpoint field_index (fs : list field) (n : string) : option (nat * field) :=
  match fs with
  | [] => None
  | f :: fs' => if String.eqb (fname f) n then Some (O, f)
                else match field_index fs' n with Some (i, g) => Some (S i, g) | None => None end
  end.

Fixpoint set_nth {A} (l : list A) (i : nat) (a : A) : list A :=
  match l, i with
  | _ :: l', O => a :: l'
  | b :: l', S i' => b :: set_nth l' i' a
  | [], _ => []
  end.

(** Does an object of type [t] have exactly the type of the slot?  Then its value
    is stored plainly, else together with its type. *)
Definition meta_eqb (a b : meta) : bool :=
  list_eqb (fun x y => tag_eqb x y && Bool.eqb (tcons x) (tcons y)) (tags a) (tags b)
  && cons_eqb (spec a) (spec b)
  && list_eqb (fun p q => String.eqb (fst p) (fst q) && Z.eqb (snd p) (snd q)) (nvals a) (nvals b)
  && cons_eqb (szs a) (szs b).
Definition did_eqb (a b : did) : bool := String.eqb (fst a) (fst b) && String.eqb (snd a) (snd b).
Definition pres_eqb (a b : presence) : bool :=
  match a, b with Req, Req | Opt, Opt | Def, Def => true | _, _ => false end.
Fixpoint asn1_eqb (a b : asn1) {struct a} : bool :=
  let fix go (x y : list field) : bool :=
    match x, y with
    | [], [] => true
    | Fld n p t d o :: x', Fld n' p' t' d' o' :: y' =>
        String.eqb n n' && pres_eqb p p' && asn1_eqb t t' && opt_eqb aval_eqb d d'
        && opt_eqb (fun u v => String.eqb (fst u) (fst v) && did_eqb (snd u) (snd v)) o o' && go x' y'
    | _, _ => false
    end in
  match a, b with
  | TPrim k m, TPrim k' m' => prim_eqb k k' && meta_eqb m m'
  | TSeq s m fs, TSeq s' m' fs' => Bool.eqb s s' && meta_eqb m m' && go fs fs'
  | TOf s m None, TOf s' m' None => Bool.eqb s s' && meta_eqb m m'
  | TOf s m (Some t), TOf s' m' (Some t') => Bool.eqb s s' && meta_eqb m m' && asn1_eqb t t'
  | TChoice m fs, TChoice m' fs' => meta_eqb m m' && go fs fs'
  | _, _ => false
  end
with aval_eqb (a b : aval) {struct a} : bool :=
  match a, b with
  | VBool x, VBool y => Bool.eqb x y
  | VInt x, VInt y => Z.eqb x y
  | VBits x, VBits y => list_eqb Bool.eqb x y
  | VOcts x, VOcts y | VOid x, VOid y | VText x, VText y => list_eqb N.eqb x y
  | VNull, VNull => true
  | VSeq x, VSeq y =>
      (fix go (x y : list (option aval)) : bool :=
        match x, y with
        | [], [] => true
        | None :: x', None :: y' => go x' y'
        | Some u :: x', Some v :: y' => aval_eqb u v && go x' y'
        | _, _ => false end) x y
  | VList x, VList y =>
      (fix go (x y : list aval) : bool :=
        match x, y with
        | [], [] => true
        | u :: x', v :: y' => aval_eqb u v && go x' y'
        | _, _ => false end) x y
  | VAlt i x, VAlt j y => Nat.eqb i j && aval_eqb x y
  | VTyped t x, VTyped u y =>
      asn1_eqb t u && match x, y with
                      | None, None => true
                      | Some x', Some y' => aval_eqb x' y'
                      | _, _ => false end
  | _, _ => false
  end.

(** The object to store for [x] in a slot of type [st] ([opn] = the slot is an
    open type).  pyasn1 checks isSuperTypeOf, unless the slot is open. *)
Definition store (st : asn1) (opn : bool) (x : pyval) : r aval :=
  match x with
  | PInst t v =>
      if type_super st t || opn then
        match asn1_eqb st t, v with
        | true, Some a => OK a
        | _, _ => OK (VTyped t v)
        end
      else Raise "Component value is tag-incompatible"
  | _ =>
      match st with
      | TPrim k m => do p <- mk_prim k m (Some x);
                     match p with PInst _ (Some a) => OK a | _ => Stuck "store" end
      | _ => Raise "can cast only scalar values"
      end
  end.

Definition is_any (t : asn1) : bool := match t with TPrim KAny _ => true | _ => false end.

(** What [inst[i]] reads for the purpose of a nested assignment
    inst[i][j] = v: the component, instantiated if absent. *)
Definition sub_inst (t : asn1) (v : option aval) (i : pyval) : r (asn1 * option aval * (aval -> aval)) :=
  match t, i with
  | TSeq _ _ fs, PStr n =>
      match field_index fs n, seq_slots fs v with
      | Some (k, f), Some slots =>
          OK (ftype f,
              match nth k slots None with Some a => Some a | None => if match fpres f with Def => true | _ => false end then fdef f else None end,
              fun a => VSeq (set_nth slots k (Some a)))
      | _, _ => Raise "KeyError"
      end
  | _, _ => Stuck "nested subscript"
  end.

(** inst[i] = x; result: new value of inst. *)
Definition set_item (t : asn1) (v : option aval) (i x : pyval) : r aval :=
  match t, i with
  | TSeq _ _ fs, PStr n =>
      match field_index fs n, seq_slots fs v with
      | Some (k, f), Some slots =>
          do a <- store (ftype f) (match fopen f with Some _ => true | None => false end) x;
          OK (VSeq (set_nth slots k (Some a)))
      | _, _ => Raise "KeyError"
      end
  | TOf _ _ (Some et), PInt z =>
      match v with
      | None | Some (VList _) =>
          let l := match v with Some (VList l) => l | _ => [] end in
          do a <- store et (is_any et) x;
          if Z.eqb z (Z.of_nat (List.length l)) then OK (VList (l ++ [a]))
          else if (Z.leb 0 z && Z.ltb z (Z.of_nat (List.length l)))%bool then OK (VList (set_nth l (Z.to_nat z) a))
          else Stuck "sparse SequenceOf"
      | _ => Stuck "SequenceOf value"
      end
  | TChoice _ fs, PStr n =>
      match field_index fs n with
      | Some (k, f) => do a <- store (ftype f) (match fopen f with Some _ => true | None => false end) x; OK (VAlt k a)
      | None => Raise "KeyError"
      end
  | _, _ => Stuck "item assignment"
  end.

(** ** Library attributes and functions *)

Definition lib_attr (m a : string) : r pyval :=
  if String.eqb m "pyasn1.type.univ" then
    let n := String.append "univ." a in
    match builtin_kind n with Some _ => OK (PClass (CBuiltin n)) | None => Stuck n end
  else if String.eqb m "pyasn1.type.char" then
    let n := String.append "char." a in
    match builtin_kind n with Some _ => OK (PClass (CBuiltin n)) | None => Stuck n end
  else if String.eqb m "pyasn1.type.useful" then
    let n := String.append "useful." a in
    match builtin_kind n with Some _ => OK (PClass (CBuiltin n)) | None => Stuck n end
  else if String.eqb m "pyasn1.type.tag" then
    if String.eqb a "Tag" then OK (PBuiltin "tag.Tag")
    else if String.eqb a "tagClassUniversal" then OK (PInt 0)
    else if String.eqb a "tagClassApplication" then OK (PInt 64)
    else if String.eqb a "tagClassContext" then OK (PInt 128)
    else if String.eqb a "tagClassPrivate" then OK (PInt 192)
    else if String.eqb a "tagFormatSimple" then OK (PInt 0)
    else if String.eqb a "tagFormatConstructed" then OK (PInt 32)
    else Stuck "tag attribute"
  else if String.eqb m "pyasn1.type.namedtype" then OK (PBuiltin (String.append "namedtype." a))
  else if String.eqb m "pyasn1.type.namedval" then OK (PBuiltin (String.append "namedval." a))
  else if String.eqb m "pyasn1.type.constraint" then OK (PBuiltin (String.append "constraint." a))
  else if String.eqb m "pyasn1.type.opentype" then OK (PBuiltin (String.append "opentype." a))
  else if String.eqb m "pyasn1.codec.der.encoder" then OK (PBuiltin (String.append "der." a))
  else if String.eqb m "string" then
    if String.eqb a "printable" then
      (* string.printable = digits + ascii_letters + punctuation + whitespace *)
      OK (PTuple (map (fun n => PBytes [n])
        (map N.of_nat (seq 48 10) ++ map N.of_nat (seq 97 26) ++ map N.of_nat (seq 65 26)
         ++ map N.of_nat (seq 33 15) ++ map N.of_nat (seq 58 7) ++ map N.of_nat (seq 91 6)
         ++ map N.of_nat (seq 123 4) ++ [32; 9; 10; 13; 11; 12]%N)))
    else Stuck "string attribute"
  else Stuck "library module".

Definition mk_tag (cls fmt num : Z) : r pyval :=
  let c := if Z.eqb cls 0 then Some Universal else if Z.eqb cls 64 then Some Application
           else if Z.eqb cls 128 then Some Context else if Z.eqb cls 192 then Some Private else None in
  let f := if Z.eqb fmt 0 then Some false else if Z.eqb fmt 32 then Some true else None in
  if Z.ltb num 0 then Raise "Negative tag ID" else
  match c, f with Some c, Some f => OK (PTag (mkTag c f (Z.to_N num))) | _, _ => Stuck "tag.Tag" end.

Definition mk_bound (v : pyval) : option (option Z) :=
  match v with PInf => Some None | _ => match as_int v with Some z => Some (Some z) | None => None end end.

Definition mk_range (isSize : bool) (a b : pyval) : r pyval :=
  match mk_bound a, mk_bound b with
  | Some (Some lo), Some hi =>
      if match hi with Some h => Z.ltb h lo | None => false end then Raise "screwed constraint values (start > stop)"
      else OK (PCons (if isSize then CSize lo hi else CRange lo hi))
  | _, _ => Stuck "constraint bounds"
  end.

Definition mk_cval (v : pyval) : option cval :=
  match v with
  | PStr s => Some (CVStr (codes s))
  | PBytes b => Some (CVStr b)
  | PInst _ (Some (VOid a)) => Some (CVOid a)
  | _ => match as_int v with Some z => Some (CVInt z) | None => None end
  end.

Definition as_cons (v : pyval) : option cons := match v with PCons c => Some c | _ => None end.
Definition as_field (v : pyval) : option field := match v with PField f => Some f | _ => None end.
Definition as_nv (v : pyval) : option (string * Z) :=
  match v with PTuple [PStr s; PInt z] => Some (s, z) | _ => None end.

Fixpoint nodup_nv (l : list (string * Z)) : bool :=
  match l with
  | [] => true
  | (s, z) :: l' => forallb (fun p => negb (String.eqb (fst p) s) && negb (Z.eqb (snd p) z)) l' && nodup_nv l'
  end.

Fixpoint nodup_ns (l : list (string * string)) : bool :=
  match l with
  | [] => true
  | (s, z) :: l' => forallb (fun p => negb (String.eqb (fst p) s) && negb (String.eqb (snd p) z)) l' && nodup_ns l'
  end.

Definition as_char (v : pyval) : option N :=
  match v with
  | PStr s => match codes s with [c] => Some c | _ => None end
  | PBytes [c] => Some c
  | _ => None
  end.

Definition mk_field (p : presence) (n : string) (o : pyval) (kw : ns) : r pyval :=
  match o with
  | PInst t v =>
      match kw with
      | [] => OK (PField (Fld n p t v None))
      | [(a, POpen g d)] => if String.eqb a "openType" then OK (PField (Fld n p t v (Some (g, d)))) else Stuck "keyword"
      | _ => Stuck "namedtype keyword"
      end
  | _ => Stuck "component is not an object"
  end.

(** DER encoding of an OCTET STRING value below 128 bytes: the single use of the
    encoder inside a module (rfc5035.py:59, [der_encode(univ.OctetString(''))]). *)
Definition der_small (v : pyval) : r pyval :=
  match v with
  | PInst (TPrim KOcts _) (Some (VOcts b)) =>
      if Nat.ltb (List.length b) 128 then OK (PBytes (4 :: N.of_nat (List.length b) :: b)%N) else Stuck "der_encode"
  | _ => Stuck "der_encode"
  end.

(** Constraints a - b on permitted alphabets: set difference. *)
Definition alpha_sub (a b : cons) : r cons :=
  match a, b with
  | CAlpha x, CAlpha y => OK (CAlpha (filter (fun c => negb (existsb (N.eqb c) y)) x))
  | _, _ => Stuck "constraint subtraction"
  end.

Definition call_builtin (n : string) (args : list pyval) (kw : ns) : r pyval :=
  if String.eqb n "tag.Tag" then
    match args with [PInt a; PInt b; PInt c] => mk_tag a b c | _ => Stuck "tag.Tag" end
  else if String.eqb n "constraint.ValueSizeConstraint" then
    match args with [a; b] => mk_range true a b | _ => Raise "bad constraint arguments" end
  else if String.eqb n "constraint.ValueRangeConstraint" then
    match args with [a; b] => mk_range false a b | _ => Raise "bad constraint arguments" end
  else if String.eqb n "constraint.SingleValueConstraint" then
    match all_some mk_cval args with Some l => OK (PCons (CSingle l)) | None => Stuck n end
  else if String.eqb n "constraint.PermittedAlphabetConstraint" then
    match all_some as_char args with Some l => OK (PCons (CAlpha l)) | None => Stuck n end
  else if String.eqb n "constraint.ConstraintsUnion" then
    match all_some as_cons args with Some l => OK (PCons (CUnion l)) | None => Stuck n end
  else if String.eqb n "constraint.ConstraintsIntersection" then
    match all_some as_cons args with Some l => OK (PCons (CInter l)) | None => Stuck n end
  else if String.eqb n "constraint.WithComponentsConstraint" then
    match all_some (fun v => match v with
                             | PTuple [PStr s; PBuiltin c] =>
                                 if String.eqb c "present" then Some (s, true)
                                 else if String.eqb c "absent" then Some (s, false) else None
                             | _ => None end) args with
    | Some l => OK (PCons (CWith l)) | None => Stuck n end
  else if String.eqb n "constraint.ComponentPresentConstraint" then OK (PBuiltin "present")
  else if String.eqb n "constraint.ComponentAbsentConstraint" then OK (PBuiltin "absent")
  else if String.eqb n "namedval.NamedValues" then
    match all_some as_nv args with
    | Some l => if nodup_nv l then OK (PNamedVals l) else Raise "Duplicate name or value"
    | None =>
        match all_some (fun v => match v with PTuple [PStr s; PStr z] => Some (s, z) | _ => None end) args with
        | Some l => if nodup_ns l then OK (PNamedStrs l) else Raise "Duplicate name or value"
        | None => Stuck n end
    end
  else if String.eqb n "namedtype.NamedTypes" then
    match all_some as_field args with Some l => OK (PFields l) | None => Stuck n end
  else if String.eqb n "namedtype.NamedType" then
    match args with [PStr s; o] => mk_field Req s o kw | _ => Stuck n end
  else if String.eqb n "namedtype.OptionalNamedType" then
    match args with [PStr s; o] => mk_field Opt s o kw | _ => Stuck n end
  else if String.eqb n "namedtype.DefaultedNamedType" then
    match args with [PStr s; o] => mk_field Def s o kw | _ => Stuck n end
  else if String.eqb n "opentype.OpenType" then
    match args with [PStr s; PDict d] => OK (POpen s d) | _ => Stuck n end
  else if String.eqb n "der.encode" then
    match args with [v] => der_small v | _ => Stuck n end
  else if String.eqb n "float" then
    match args with [PStr s] => if String.eqb s "inf" then OK PInf else Stuck n | _ => Stuck n end
  else if String.eqb n "int" then
    match args with [v] => match as_int v with Some z => OK (PInt z) | None => Stuck n end | _ => Stuck n end
  else if String.eqb n "list" then
    match args with
    | [PTuple l] | [PList l] => OK (PList l)
    | [PInst _ (Some (VOid a))] => OK (PList (map (fun n => PInt (Z.of_N n)) a))
    | _ => Stuck n end
  else if String.eqb n "tuple" then
    match args with
    | [PTuple l] | [PList l] => OK (PTuple l)
    | [PInst _ (Some (VOid a))] => OK (PTuple (map (fun n => PInt (Z.of_N n)) a))
    | _ => Stuck n end
  else if String.eqb n "isinstance" then
    match args with
    | [v; PClass (CBuiltin c)] =>
        if String.eqb c "univ.ObjectIdentifier" then
          OK (PBool (match v with PInst (TPrim KOid _) _ => true | _ => false end))
        else Stuck "isinstance"
    | _ => Stuck "isinstance" end
  else Stuck n.

Definition builtin_names : list string := ["float"; "int"; "list"; "tuple"; "isinstance"].

Definition lookup_name (E : env) (x : string) : r pyval :=
  match lookup (e_loc E) x with
  | Some v => OK v
  | None =>
      match lookup (e_ns E) x with
      | Some v => OK v
      | None => if existsb (String.eqb x) builtin_names then OK (PBuiltin x)
                else Raise (String.append "NameError: " x)
      end
  end.

(** ** Expressions *)

Definition is_method (m : string) : bool :=
  existsb (String.eqb m) ["subtype"; "clone"; "tagImplicitly"; "tagExplicitly"; "update"; "append"; "extend"; "__init__"].

Definition get_attr (E : env) (v : pyval) (a : string) : r pyval :=
  match v with
  | PLib m => lib_attr m a
  | PModule m =>
      match e_imp E m with
      | Some R => of_opt (String.append "AttributeError: " a) (lookup (m_ns R) a)
      | None => Stuck "module not loaded"
      end
  | PClass c =>
      match class_attr depth E c a with
      | Some w => OK w
      | None => Stuck (String.append "class attribute " a)
      end
  | PInst _ _ | PTagSet _ | PDict _ | PList _ => if is_method a then OK (PBound v a) else Stuck (String.append "attribute " a)
  | _ => Stuck (String.append "attribute " a)
  end.

Definition call_method (o : pyval) (m : string) (args : list pyval) (kw : ns) : r pyval :=
  match o with
  | PInst t v =>
      if String.eqb m "subtype" then inst_subtype t v args kw
      else if String.eqb m "clone" then inst_clone t v args kw
      else Stuck (String.append "method " m)
  | PTagSet ts =>
      match args, kw with
      | [PTag t], [] =>
          if String.eqb m "tagImplicitly" then OK (PTagSet (tag_implicitly ts t))
          else if String.eqb m "tagExplicitly" then
            do l <- of_opt "Can't tag with UNIVERSAL class tag" (tag_explicitly ts t); OK (PTagSet l)
          else Stuck "TagSet method"
      | _, _ => Stuck "TagSet method"
      end
  | _ => Stuck (String.append "method " m)
  end.

Definition binop_eval (o : binop) (a b : pyval) : r pyval :=
  match o, a, b with
  | OAdd, PCons c, PCons d => do e <- cons_add c d; OK (PCons e)
  | OSub, PCons c, PCons d => do e <- alpha_sub c d; OK (PCons e)
  | OAdd, PTuple x, PTuple y => OK (PTuple (x ++ y))
  | OAdd, PInst (TPrim KOid m) (Some (VOid x)), PTuple y =>
      match all_some as_arc y with
      | Some ys => if csat [] (spec m) (VOid (x ++ ys)) then OK (PInst (TPrim KOid m) (Some (VOid (x ++ ys))))
                   else Raise "ValueConstraintError"
      | None => Raise "Malformed Object ID" end
  | OAdd, PInt x, PInt y => OK (PInt (x + y))
  | _, _, _ => Stuck "binary operator"
  end.

Section EVAL.
  (** How to call a function defined in the module (given the arguments). *)
  Variable callf : pyval -> list pyval -> ns -> r pyval.

  Definition apply_val (E : env) (f : pyval) (args : list pyval) (kw : ns) : r pyval :=
    match f with
    | PClass c => instantiate E c args kw
    | PBuiltin n => call_builtin n args kw
    | PBound o m => call_method o m args kw
    | PFun _ _ _ _ => callf f args kw
    | _ => Stuck "call"
    end.

  Fixpoint eval (E : env) (e : expr) {struct e} : r pyval :=
    match e with
    | EName x => lookup_name E x
    | EAttr e a => do v <- eval E e; get_attr E v a
    | EInt z => OK (PInt z)
    | EStr s => OK (PStr s)
    | EBool b => OK (PBool b)
    | EStar _ => Stuck "starred expression"
    | ETuple es =>
        do l <- (fix go (es : list expr) : r (list pyval) :=
                   match es with [] => OK [] | e :: es' => do v <- eval E e; do vs <- go es'; OK (v :: vs) end) es;
        OK (PTuple l)
    | EList es =>
        do l <- (fix go (es : list expr) : r (list pyval) :=
                   match es with [] => OK [] | e :: es' => do v <- eval E e; do vs <- go es'; OK (v :: vs) end) es;
        OK (PList l)
    | EDict _ => Stuck "dict expression"
    | ESub _ _ => Stuck "subscript expression"
    | EBin o a b => do x <- eval E a; do y <- eval E b; binop_eval o x y
    | ENeg a => do x <- eval E a; match x with PInt z => OK (PInt (- z)) | _ => Stuck "negation" end
    | ECall f args kw =>
        do fv <- eval E f;
        do avs <- (fix go (es : list expr) : r (list pyval) :=
                     match es with
                     | [] => OK []
                     | EStar e :: es' =>
                         do v <- eval E e; do vs <- go es';
                         match v with PTuple l | PList l => OK (l ++ vs) | _ => Stuck "starred argument" end
                     | e :: es' => do v <- eval E e; do vs <- go es'; OK (v :: vs)
                     end) args;
        do kvs <- (fix go (kw : list (string * expr)) : r ns :=
                     match kw with
                     | [] => OK []
                     | (k, e) :: kw' => do v <- eval E e; do vs <- go kw'; OK ((k, v) :: vs)
                     end) kw;
        apply_val E fv avs kvs
    end.
End EVAL.

(** ** Function bodies (the _OID/_buildOid helpers) *)

Definition no_call : pyval -> list pyval -> ns -> r pyval := fun _ _ _ => Stuck "nested function call".

Definition truth (v : pyval) : r bool :=
  match v with PBool b => OK b | PInt z => OK (negb (Z.eqb z 0)) | _ => Stuck "truth value" end.

Definition with_loc (E : env) (l : ns) : env := mkE (e_mod E) (e_imp E) l (e_ns E) (e_cls E).

(** Result of executing statements of a function: new locals or a returned value. *)
Inductive flow := Next (l : ns) | Return (v : pyval).

Fixpoint exec_fun (E : env) (s : stmt) (l : ns) {struct s} : r flow :=
  let fix exec_body (b : list stmt) (l : ns) : r flow :=
    match b with
    | [] => OK (Next l)
    | s :: b' => do f <- exec_fun E s l;
                 match f with Next l' => exec_body b' l' | Return v => OK (Return v) end
    end in
  match s with
  | SPass => OK (Next l)
  | SAssign [EName x] e => do v <- eval no_call (with_loc E l) e; OK (Next ((x, v) :: l))
  | SExpr (ECall (EAttr (EName x) m) [a] []) =>
      do v <- eval no_call (with_loc E l) a;
      match lookup l x with
      | Some (PList xs) =>
          if String.eqb m "append" then OK (Next ((x, PList (xs ++ [v])) :: l))
          else if String.eqb m "extend" then
            match v with PList ys | PTuple ys => OK (Next ((x, PList (xs ++ ys)) :: l)) | _ => Stuck "extend" end
          else Stuck "list method"
      | _ => Stuck "method on non-list"
      end
  | SFor x e b =>
      do v <- eval no_call (with_loc E l) e;
      match v with
      | PTuple vs | PList vs =>
          (fix iter (vs : list pyval) (l : ns) : r flow :=
             match vs with
             | [] => OK (Next l)
             | v :: vs' => do f <- exec_body b ((x, v) :: l);
                           match f with Next l' => iter vs' l' | Return v => OK (Return v) end
             end) vs l
      | _ => Stuck "for"
      end
  | SIf c a b =>
      do v <- eval no_call (with_loc E l) c; do t <- truth v;
      if t then exec_body a l else exec_body b l
  | SReturn e => do v <- eval no_call (with_loc E l) e; OK (Return v)
  | _ => Stuck "statement in function"
  end.

Definition exec_body (E : env) : list stmt -> ns -> r flow :=
  fix exec_body (b : list stmt) (l : ns) : r flow :=
    match b with
    | [] => OK (Next l)
    | s :: b' => do f <- exec_fun E s l;
                 match f with Next l' => exec_body b' l' | Return v => OK (Return v) end
    end.

Definition call_fun (E : env) (f : pyval) (args : list pyval) (kw : ns) : r pyval :=
  match f, kw with
  | PFun m [] (Some va) b, [] =>
      if String.eqb m (e_mod E) then
        do fl <- exec_body E b [(va, PTuple args)];
        match fl with Return v => OK v | Next _ => OK PNone end
      else Stuck "function of another module"
  | _, _ => Stuck "function call"
  end.

(** ** Module statements *)

Record state := mkS { s_ns : ns; s_cls : list (string * classdef); s_log : list (did * items) }.

Definition env_of (M : string) (imp : string -> option modres) (loc : ns) (S : state) : env :=
  mkE M imp loc (s_ns S) (s_cls S).

Definition ev (M : string) (imp : string -> option modres) (loc : ns) (S : state) (e : expr) : r pyval :=
  let E := env_of M imp loc S in eval (call_fun E) E e.

Definition bind_name (S : state) (x : string) (v : pyval) : state :=
  mkS ((x, v) :: s_ns S) (s_cls S) (s_log S).

Definition as_key (v : pyval) : option key :=
  match v with
  | PInst _ (Some (VOid a)) => Some (KeyOid a)
  | PInst _ (Some (VInt z)) => Some (KeyInt z)
  | PInt z => Some (KeyInt z)
  | _ => None
  end.

Definition key_eqb (a b : key) : bool :=
  match a, b with
  | KeyOid x, KeyOid y => list_eqb N.eqb x y
  | KeyInt x, KeyInt y => Z.eqb x y
  | _, _ => false
  end.

Definition as_item (v : pyval) : option (asn1 * option aval) :=
  match v with PInst t o => Some (t, o) | _ => None end.

(** Library module paths. *)
Definition is_lib (m : string) : bool :=
  existsb (String.eqb m)
    ["pyasn1.type.univ"; "pyasn1.type.char"; "pyasn1.type.useful"; "pyasn1.type.tag"; "pyasn1.type.namedtype";
     "pyasn1.type.namedval"; "pyasn1.type.constraint"; "pyasn1.type.opentype"; "pyasn1.codec.der.encoder"; "string"].

Definition pkg := "pyasn1_modules".
Definition strip_pkg (m : string) : option string :=
  if String.prefix "pyasn1_modules." m then Some (substring 15 (String.length m - 15) m) else None.

(** from m import a as b *)
Definition import_from (imp : string -> option modres) (m a : string) : r pyval :=
  if String.eqb m pkg then
    match imp a with Some _ => OK (PModule a) | None => Raise (String.append "ImportError: " a) end
  else match strip_pkg m with
  | Some m' =>
      match imp m' with
      | Some R => of_opt (String.append "ImportError: " a) (lookup (m_ns R) a)
      | None => Raise (String.append "ImportError: " m')
      end
  | None =>
      if String.eqb m "pyasn1.type" then
        let f := String.append "pyasn1.type." a in if is_lib f then OK (PLib f) else Stuck f
      else if is_lib m then lib_attr m a
      else Stuck m
  end.

Definition public (x : string) : bool :=
  match x with String c _ => negb (Ascii.eqb c "_"%char) | EmptyString => false end.

(** Class bodies: assignments of attributes, pass, nested classes, methods.
    Result: attributes, plus nested classes added to the class table. *)
Fixpoint exec_class (M : string) (imp : string -> option modres) (fuel : nat) (qual : string)
         (base : cref) (body : list stmt) (attrs : ns) (S : state) : r (ns * state) :=
  match fuel with
  | O => Stuck "class nesting"
  | S fuel' =>
      match body with
      | [] => OK (attrs, S)
      | s :: body' =>
          do (attrs', S') <-
            (match s with
             | SPass => OK (attrs, S)
             | SExpr e => do _ <- ev M imp attrs S e; OK (attrs, S)
             | SAssign [EName x] e => do v <- ev M imp attrs S e; OK ((x, v) :: attrs, S)
             | SDef n ps va b => OK ((n, PFun M ps va b) :: attrs, S)
             | SClass n be b =>
                 do bv <- ev M imp attrs S be;
                 match bv with
                 | PClass c =>
                     let q := String.append qual (String.append "." n) in
                     do (a2, S2) <- exec_class M imp fuel' q c b [] S;
                     OK ((n, PClass (CUser M q)) :: attrs,
                         mkS (s_ns S2) ((q, mkC c a2) :: s_cls S2) (s_log S2))
                 | _ => Stuck "class base"
                 end
             | _ => Stuck "class body"
             end);
          exec_class M imp fuel' qual base body' attrs' S'
      end
  end.

(** Replace attribute [a] of class [n] of the current module. *)
Fixpoint set_class_attr (l : list (string * classdef)) (n a : string) (v : pyval) : option (list (string * classdef)) :=
  match l with
  | [] => None
  | (x, d) :: l' =>
      if String.eqb x n then Some ((x, mkC (c_base d) ((a, v) :: c_attrs d)) :: l')
      else match set_class_attr l' n a v with Some l'' => Some ((x, d) :: l'') | None => None end
  end.

(** Path of a subscript target  x[i][j]... : variable and indices. *)
Fixpoint sub_path (e : expr) (acc : list expr) : option (string * list expr) :=
  match e with
  | ESub e' i => sub_path e' (i :: acc)
  | EName x => Some (x, acc)
  | _ => None
  end.

Fixpoint assign_path (t : asn1) (v : option aval) (path : list pyval) (x : pyval) : r aval :=
  match path with
  | [] => Stuck "empty path"
  | [i] => set_item t v i x
  | i :: path' =>
      do p <- sub_inst t v i;
      let '(t', v', put) := p in
      do a <- assign_path t' v' path' x;
      OK (put a)
  end.

Definition assign_target (M : string) (imp : string -> option modres) (S : state) (t : expr) (v : pyval) : r state :=
  match t with
  | EName x => OK (bind_name S x v)
  | EAttr (EName c) a =>
      do cv <- ev M imp [] S (EName c);
      match cv with
      | PClass (CUser m n) =>
          if String.eqb m M then
            match set_class_attr (s_cls S) n a v with
            | Some l => OK (mkS (s_ns S) l (s_log S))
            | None => Stuck "unknown class"
            end
          else Stuck "attribute of a class of another module"
      | PInst _ _ => if String.eqb a "_componentType" then OK S else Stuck "instance attribute"
      | _ => Stuck "attribute target"
      end
  | ESub _ _ =>
      match sub_path t [] with
      | Some (x, path) =>
          do o <- ev M imp [] S (EName x);
          do is <- mapM (ev M imp [] S) path;
          match o with
          | PInst ty val => do a <- assign_path ty val is v; OK (bind_name S x (PInst ty (Some a)))
          | _ => Stuck "subscript target"
          end
      | None => Stuck "subscript target"
      end
  | _ => Stuck "assignment target"
  end.

Definition log_of (S : state) (d : did) : items :=
  List.concat (map snd (filter (fun p => did_eqb (fst p) d) (s_log S))).

(** One top-level statement. *)
Definition exec_stmt (M : string) (imp : string -> option modres) (S : state) (s : stmt) : r state :=
  match s with
  | SPass => OK S
  | SImport m => if is_lib m then OK (bind_name S m (PLib m)) else Stuck "import"
  | SFrom m names =>
      (fix go (names : list (string * string)) (S : state) : r state :=
         match names with
         | [] => OK S
         | (a, b) :: names' => do v <- import_from imp m a; go names' (bind_name S b v)
         end) names S
  | SFromStar m =>
      match strip_pkg m with
      | Some m' =>
          match imp m' with
          | Some R => OK (mkS (filter (fun p => public (fst p)) (m_ns R) ++ s_ns S) (s_cls S) (s_log S))
          | None => Raise "ImportError"
          end
      | None => Stuck "import *"
      end
  | SAssign [EName x] (EDict kvs) =>
      (* x = {...}: a new registry, identified by (module, variable) *)
      if existsb (fun p => did_eqb (fst p) (M, x)) (s_log S) then Stuck "dict variable rebound" else
      do its <- mapM (fun kv : expr * expr =>
                  do k <- ev M imp [] S (fst kv); do v <- ev M imp [] S (snd kv);
                  match as_key k, as_item v with
                  | Some k', Some v' => OK (k', v')
                  | _, _ => Stuck "dict item" end) kvs;
      OK (mkS ((x, PDict (M, x)) :: s_ns S) (s_cls S) (s_log S ++ [((M, x), its)]))
  | SAssign targets e =>
      do v <- ev M imp [] S e;
      (fix go (ts : list expr) (S : state) : r state :=
         match ts with [] => OK S | t :: ts' => do S' <- assign_target M imp S t v; go ts' S' end) targets S
  | SExpr (ECall (EAttr target m) [arg] []) =>
      (* registry.update(own dict) *)
      if String.eqb m "update" then
        do o <- ev M imp [] S target; do a <- ev M imp [] S arg;
        match o, a with
        | PDict d, PDict (M', x) =>
            if String.eqb M' M then OK (mkS (s_ns S) (s_cls S) (s_log S ++ [(d, log_of S (M', x))]))
            else Stuck "update from a foreign dict"
        | _, _ => Stuck "update"
        end
      else Stuck "expression statement"
  | SClass n be b =>
      do bv <- ev M imp [] S be;
      match bv with
      | PClass c =>
          do (attrs, S') <- exec_class M imp 200 n c b [] S;
          OK (mkS ((n, PClass (CUser M n)) :: s_ns S') ((n, mkC c attrs) :: s_cls S') (s_log S'))
      | _ => Stuck "class base"
      end
  | SDef n ps va b => OK (bind_name S n (PFun M ps va b))
  | _ => Stuck "statement"
  end.
