(** The Python in which pyasn1_modules/pem.py and the dump tools (/repo/tools) are
    written.  tools/scripts2coq.py prints them as terms of these types (Gen/Scripts.v);
    Tools/Script.v runs them. *)
From Coq Require Import List String ZArith NArith Bool.
Import ListNotations.
Open Scope string_scope.

Inductive px :=
| XName (x : string) | XInt (z : Z) | XStr (s : string) | XNone | XTrue
| XTuple (l : list px) | XList (l : list px) | XDict (l : list (px * px))
| XAttr (e : px) (a : string)
| XCall (f : px) (args : list px) (kw : list (string * px))
| XSub (e i : px)                                (* e[i] *)
| XUpto (e n : px)                               (* e[:n] *)
| XNot (e : px) | XNeg (e : px)
| XAnd (a b : px)
| XCmp (o : string) (a b : px)                   (* ==, !=, <=, in *)
| XMod (a b : px)                                (* a % b *)
| XComp (b : px) (x : string) (l : px).          (* [b for x in l]; map(lambda x: b, l) *)

Inductive ps :=
| PImport (m : string)
| PFrom (m : string) (names : list string)       (* from m import names *)
| PAssign (xs : list string) (e : px)            (* x = e; x, y = e *)
| PAug (x : string) (e : px)                     (* x += e *)
| PAppend (x : string) (e : px)                  (* x.append(e) *)
| PExpr (e : px)
| PAssert (e : px)                               (* assert e, and its message left out *)
| PIf (c : px) (a b : list ps)
| PWhile (c : px) (b : list ps)
| PBreak | PContinue
| PReturn (e : px)
| PDef (f : string) (params : list (string * option px)) (vararg : option string) (b : list ps).
