(** pyasn1 schema objects, constraints and values.

    This is the data model of the pyasn1 library (pyasn1/type/{tag,univ,char,
    useful,constraint,namedtype}.py, version 0.4.8), which every module of
    pyasn1_modules instantiates.  pyasn1 is not part of /repo; its behaviour is
    in the trusted base (DESIGN.md). *)
From Coq Require Import List String ZArith NArith Bool.
Import ListNotations.
Open Scope string_scope.
Open Scope list_scope.

(** pyasn1.type.tag: classes, tag format, tag number.  Tag equality in pyasn1
    ignores the format. *)
Inductive tclass := Universal | Application | Context | Private.
Record tag := mkTag { tcls : tclass; tcons : bool; tnum : N }.

(** Character-string types of pyasn1.type.char and pyasn1.type.useful. *)
Inductive strkind := SUTF8 | SNumeric | SPrintable | STeletex | SVideotex | SIA5 | SGraphic
  | SVisible | SGeneral | SUniversal | SBMP | SObjDesc | SGenTime | SUTCTime.

Inductive prim := KBool | KInt | KEnum | KBits | KOcts | KNull | KOid | KAny | KStr (s : strkind).

(** A value inside a SingleValueConstraint. *)
Inductive cval := CVInt (z : Z) | CVStr (s : list N) | CVOid (arcs : list N).

(** pyasn1.type.constraint.  [None] upper bound = float('inf'). *)
Inductive cons :=
| CInter (l : list cons)
| CUnion (l : list cons)
| CSize (lo : Z) (hi : option Z)
| CRange (lo : Z) (hi : option Z)
| CSingle (l : list cval)
| CAlpha (l : list N)
| CWith (l : list (string * bool)).      (* component name, must be present? *)

(** What every pyasn1 schema object carries: tags (innermost first, as in
    TagSet.superTags), subtypeSpec, namedValues; [szs] is the class-level
    sizeSpec, folded into [spec] at construction. *)
Record meta := mkM { tags : list tag; spec : cons; nvals : list (string * Z); szs : cons }.

Inductive presence := Req | Opt | Def.

(** Identity of a registry (Python dict object): defining module and variable. *)
Definition did := (string * string)%type.

Inductive asn1 :=
| TPrim (k : prim) (m : meta)
| TSeq (isset : bool) (m : meta) (fs : list field)
| TOf (isset : bool) (m : meta) (elt : option asn1)
| TChoice (m : meta) (alts : list field)
with field := Fld (name : string) (p : presence) (ty : asn1) (dv : option aval) (open : option (string * did))
with aval :=
| VBool (b : bool)
| VInt (z : Z)
| VBits (b : list bool)
| VOcts (b : list N)
| VNull
| VOid (arcs : list N)
| VText (t : list N)                     (* code points *)
| VSeq (vs : list (option aval))         (* one slot per component *)
| VList (vs : list aval)
| VAlt (i : nat) (v : aval)
| VTyped (t : asn1) (v : option aval).   (* an object with its own type, in an ANY slot *)

Definition fname (f : field) : string := let (n, _, _, _, _) := f in n.
Definition fpres (f : field) : presence := let (_, p, _, _, _) := f in p.
Definition ftype (f : field) : asn1 := let (_, _, t, _, _) := f in t.
Definition fdef (f : field) : option aval := let (_, _, _, d, _) := f in d.
Definition fopen (f : field) : option (string * did) := let (_, _, _, _, o) := f in o.

Definition meta_of (t : asn1) : meta :=
  match t with TPrim _ m | TSeq _ m _ | TOf _ m _ | TChoice m _ => m end.
Definition set_meta (t : asn1) (m : meta) : asn1 :=
  match t with
  | TPrim k _ => TPrim k m | TSeq s _ fs => TSeq s m fs
  | TOf s _ e => TOf s m e | TChoice _ a => TChoice m a
  end.

(** Induction over types with their components (values are left alone). *)
Section asn1_ind2.
  Variable P : asn1 -> Prop.
  Variable Hprim : forall k m, P (TPrim k m).
  Variable Hseq : forall s m fs, Forall (fun f => P (ftype f)) fs -> P (TSeq s m fs).
  Variable Hof : forall s m t, P t -> P (TOf s m (Some t)).
  Variable Hof0 : forall s m, P (TOf s m None).
  Variable Hch : forall m fs, Forall (fun f => P (ftype f)) fs -> P (TChoice m fs).
  Fixpoint asn1_ind2 (t : asn1) : P t :=
    let fix go (fs : list field) : Forall (fun f => P (ftype f)) fs :=
      match fs with
      | [] => Forall_nil _
      | f :: fs' =>
          Forall_cons f (match f as f0 return P (ftype f0) with Fld _ _ t' _ _ => asn1_ind2 t' end) (go fs')
      end in
    match t with
    | TPrim k m => Hprim k m
    | TSeq s m fs => Hseq s m fs (go fs)
    | TOf s m (Some t') => Hof s m t' (asn1_ind2 t')
    | TOf s m None => Hof0 s m
    | TChoice m fs => Hch m fs (go fs)
    end.
End asn1_ind2.

(** ** Decidable equality tests *)

Definition tclass_eqb (a b : tclass) : bool :=
  match a, b with
  | Universal, Universal | Application, Application | Context, Context | Private, Private => true
  | _, _ => false
  end.
(** Tag.__eq__ compares class and number only. *)
Definition tag_eqb (a b : tag) : bool := tclass_eqb (tcls a) (tcls b) && N.eqb (tnum a) (tnum b).
Fixpoint list_eqb {A} (eqb : A -> A -> bool) (a b : list A) : bool :=
  match a, b with
  | [], [] => true
  | x :: a', y :: b' => eqb x y && list_eqb eqb a' b'
  | _, _ => false
  end.
Definition tags_eqb := list_eqb tag_eqb.
Definition opt_eqb {A} (eqb : A -> A -> bool) (a b : option A) : bool :=
  match a, b with Some x, Some y => eqb x y | None, None => true | _, _ => false end.
Definition cval_eqb (a b : cval) : bool :=
  match a, b with
  | CVInt x, CVInt y => Z.eqb x y
  | CVStr x, CVStr y | CVOid x, CVOid y => list_eqb N.eqb x y
  | _, _ => false
  end.
Fixpoint cons_eqb (a b : cons) {struct a} : bool :=
  match a, b with
  | CInter x, CInter y | CUnion x, CUnion y =>
      (fix go x y := match x, y with
                     | [], [] => true
                     | c :: x', d :: y' => cons_eqb c d && go x' y'
                     | _, _ => false end) x y
  | CSize l h, CSize l' h' | CRange l h, CRange l' h' => Z.eqb l l' && opt_eqb Z.eqb h h'
  | CSingle x, CSingle y => list_eqb cval_eqb x y
  | CAlpha x, CAlpha y => list_eqb N.eqb x y
  | CWith x, CWith y =>
      list_eqb (fun p q => String.eqb (fst p) (fst q) && Bool.eqb (snd p) (snd q)) x y
  | _, _ => false
  end.

Definition prim_eqb (a b : prim) : bool :=
  match a, b with
  | KBool, KBool | KInt, KInt | KEnum, KEnum | KBits, KBits | KOcts, KOcts | KNull, KNull
  | KOid, KOid | KAny, KAny => true
  | KStr x, KStr y =>
      match x, y with
      | SUTF8, SUTF8 | SNumeric, SNumeric | SPrintable, SPrintable | STeletex, STeletex
      | SVideotex, SVideotex | SIA5, SIA5 | SGraphic, SGraphic | SVisible, SVisible
      | SGeneral, SGeneral | SUniversal, SUniversal | SBMP, SBMP | SObjDesc, SObjDesc
      | SGenTime, SGenTime | SUTCTime, SUTCTime => true
      | _, _ => false
      end
  | _, _ => false
  end.

(** ** Constraints applied to values (constraint.__call__) *)

Definition leb_hi (z : Z) (hi : option Z) : bool :=
  match hi with Some h => Z.leb z h | None => true end.

(** len(value), as ValueSizeConstraint sees it: octets, characters, bits,
    elements, or components that are present (isInconsistent builds a dict). *)
Definition vlen (v : aval) : option Z :=
  match v with
  | VOcts b => Some (Z.of_nat (List.length b))
  | VText t => Some (Z.of_nat (List.length t))
  | VBits b => Some (Z.of_nat (List.length b))
  | VList l => Some (Z.of_nat (List.length l))
  | VOid l => Some (Z.of_nat (List.length l))
  | VSeq l => Some (Z.of_nat (List.length (filter (fun o => match o with Some _ => true | None => false end) l)))
  | _ => None
  end.

Definition vint (v : aval) : option Z :=
  match v with VInt z => Some z | VBool b => Some (if b then 1 else 0)%Z | _ => None end.

Definition cval_of (v : aval) : option cval :=
  match v with
  | VInt z => Some (CVInt z)
  | VBool b => Some (CVInt (if b then 1 else 0)%Z)
  | VOcts b => Some (CVStr b)
  | VText t => Some (CVStr t)
  | VNull => Some (CVStr [])
  | VOid a => Some (CVOid a)
  | _ => None
  end.

Definition vchars (v : aval) : option (list N) :=
  match v with VOcts b => Some b | VText t => Some t | _ => None end.

(** [names] = component names of the SEQUENCE the value belongs to (for
    WithComponentsConstraint). *)
Fixpoint csat (names : list string) (c : cons) (v : aval) {struct c} : bool :=
  match c with
  | CInter l => (fix all l := match l with [] => true | c :: l' => csat names c v && all l' end) l
  | CUnion [] => true
  | CUnion l => (fix any l := match l with [] => false | c :: l' => csat names c v || any l' end) l
  | CSize lo hi => match vlen v with Some n => Z.leb lo n && leb_hi n hi | None => false end
  | CRange lo hi => match vint v with Some n => Z.leb lo n && leb_hi n hi | None => false end
  | CSingle l => match cval_of v with Some x => existsb (cval_eqb x) l | None => false end
  | CAlpha a => match vchars v with Some t => forallb (fun c => existsb (N.eqb c) a) t | None => false end
  | CWith l =>
      match v with
      | VSeq vs =>
          forallb (fun p : string * bool =>
             let fix present (ns : list string) (vs : list (option aval)) : bool :=
               match ns, vs with
               | n :: ns', o :: vs' =>
                   if String.eqb n (fst p) then match o with Some _ => true | None => false end
                   else present ns' vs'
               | _, _ => false
               end in
             Bool.eqb (present names vs) (snd p)) l
      | _ => false
      end
  end.

(** bool(constraint): empty constraints are false. *)
Definition ctruthy (c : cons) : bool :=
  match c with CInter [] | CUnion [] | CSingle [] | CAlpha [] | CWith [] => false | _ => true end.

(** ** Constraint subtyping: constraint.isSuperTypeOf *)
Fixpoint in_value_map (c d : cons) {struct d} : bool :=
  match d with
  | CInter l => (fix go l := match l with
                             | [] => false
                             | x :: l' => cons_eqb c x || in_value_map c x || go l' end) l
  | _ => false
  end.
Definition csuper (c d : cons) : bool := negb (ctruthy c) || cons_eqb c d || in_value_map c d.

Fixpoint is_prefix (a b : list tag) : bool :=
  match a, b with
  | [], _ => true
  | x :: a', y :: b' => tag_eqb x y && is_prefix a' b'
  | _, _ => false
  end.
(** Asn1Item.isSuperTypeOf *)
Definition type_super (s t : asn1) : bool :=
  is_prefix (tags (meta_of s)) (tags (meta_of t)) && csuper (spec (meta_of s)) (spec (meta_of t)).

(** ** Tag set operations (pyasn1.type.tag.TagSet) *)

(** tagImplicitly: replace the outermost tag, keeping its format; on an empty
    TagSet the tag is simply appended. *)
Definition tag_implicitly (ts : list tag) (t : tag) : list tag :=
  match rev ts with
  | [] => [t]
  | last :: before => rev before ++ [mkTag (tcls t) (tcons last) (tnum t)]
  end.
(** tagExplicitly: append a constructed tag; universal tags are refused. *)
Definition tag_explicitly (ts : list tag) (t : tag) : option (list tag) :=
  match tcls t with
  | Universal => None
  | _ => Some (ts ++ [mkTag (tcls t) true (tnum t)])
  end.
