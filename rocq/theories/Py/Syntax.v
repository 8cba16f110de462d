(** Abstract syntax of the Python subset in which pyasn1_modules/rfc*.py are
    written.  tools/py2coq.py prints each module as a term of this type. *)
From Coq Require Import List String ZArith NArith.
Import ListNotations.
Open Scope string_scope.

Inductive binop := OAdd | OSub.

Inductive expr :=
| EName (x : string)
| EAttr (e : expr) (a : string)
| ECall (f : expr) (args : list expr) (kw : list (string * expr))
| EStar (e : expr)                               (* *e in an argument list *)
| EInt (z : Z)
| EStr (s : string)
| EBool (b : bool)
| ETuple (es : list expr)
| EList (es : list expr)
| EDict (kvs : list (expr * expr))
| ESub (e i : expr)                              (* e[i] *)
| EBin (o : binop) (a b : expr)
| ENeg (e : expr).

(** Statements; [SLine n s] records the source line of a top-level statement. *)
Inductive stmt :=
| SImport (m : string)                           (* import m *)
| SFrom (m : string) (names : list (string * string))  (* from m import a as b, ... *)
| SFromStar (m : string)                         (* from m import * *)
| SAssign (targets : list expr) (v : expr)
| SExpr (e : expr)
| SPass
| SClass (name : string) (base : expr) (body : list stmt)
| SDef (name : string) (params : list string) (vararg : option string) (body : list stmt)
| SFor (x : string) (e : expr) (body : list stmt)
| SIf (c : expr) (a b : list stmt)
| SReturn (e : expr).

Definition module := list (N * stmt).

(** ** Abbreviations used by the printer (they unfold to plain syntax) *)
Definition call0 (f : expr) : expr := ECall f [] [].
Definition call (f : expr) (args : list expr) : expr := ECall f args [].
Definition new (x : string) : expr := ECall (EName x) [] [].
Definition univ (x : string) : expr := EAttr (EName "univ") x.
Definition chr (x : string) : expr := EAttr (EName "char") x.
Definition useful (x : string) : expr := EAttr (EName "useful") x.
Definition qual (m x : string) : expr := EAttr (EName m) x.
(** tag.Tag(tag.<cls>, tag.<fmt>, n) *)
Definition mktag (cls fmt : string) (n : Z) : expr :=
  ECall (qual "tag" "Tag") [qual "tag" cls; qual "tag" fmt; EInt n] [].
Definition ctxS := mktag "tagClassContext" "tagFormatSimple".
Definition ctxC := mktag "tagClassContext" "tagFormatConstructed".
Definition appS := mktag "tagClassApplication" "tagFormatSimple".
Definition appC := mktag "tagClassApplication" "tagFormatConstructed".
(** e.subtype(implicitTag=t), e.subtype(explicitTag=t), e.subtype(subtypeSpec=c), ... *)
Definition implicit (e t : expr) : expr := ECall (EAttr e "subtype") [] [("implicitTag", t)].
Definition explicit (e t : expr) : expr := ECall (EAttr e "subtype") [] [("explicitTag", t)].
Definition withspec (e c : expr) : expr := ECall (EAttr e "subtype") [] [("subtypeSpec", c)].
Definition withsize (e c : expr) : expr := ECall (EAttr e "subtype") [] [("sizeSpec", c)].
Definition withvalue (e v : expr) : expr := ECall (EAttr e "subtype") [] [("value", v)].
(** namedtype constructors *)
Definition nts (l : list expr) : expr := ECall (qual "namedtype" "NamedTypes") l [].
Definition nt (n : string) (e : expr) : expr := ECall (qual "namedtype" "NamedType") [EStr n; e] [].
Definition ont (n : string) (e : expr) : expr := ECall (qual "namedtype" "OptionalNamedType") [EStr n; e] [].
Definition dnt (n : string) (e : expr) : expr := ECall (qual "namedtype" "DefaultedNamedType") [EStr n; e] [].
(** constraints and named values *)
Definition sizec (a b : expr) : expr := ECall (qual "constraint" "ValueSizeConstraint") [a; b] [].
Definition rangec (a b : expr) : expr := ECall (qual "constraint" "ValueRangeConstraint") [a; b] [].
Definition nvs (l : list expr) : expr := ECall (qual "namedval" "NamedValues") l [].
Definition nv (s : string) (z : Z) : expr := ETuple [EStr s; EInt z].
(** x = e *)
Definition set (x : string) (e : expr) : stmt := SAssign [EName x] e.
(** C.a = e *)
Definition seta (c a : string) (e : expr) : stmt := SAssign [EAttr (EName c) a] e.
