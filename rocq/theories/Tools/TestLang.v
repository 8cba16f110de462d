(** The programs of the project's tests (the test methods of /repo/tests), as data.
    Gen/TestPrograms.v is their translation by tools/tests2coq.py; Tools/TestRun.v runs them. *)
From Coq Require Import List String ZArith NArith Bool.
From Verif Require Import Py.Syntax.
Import ListNotations.
Open Scope string_scope.

(** Expressions.  [XPy m e]: an expression that mentions nothing but names of module [m] and
    constants (rfc5652.ContentInfo(), rfc5280.certificateExtensionsMap, univ.Null('')). *)
Inductive tx :=
| XVar (x : string)                              (* a local variable, or self.x set in setUp *)
| XPy (m : string) (e : expr)
| XHex (e : tx) (h : string)                     (* T(hexValue='…'), [e] being T() *)
| XWith (e v : tx)                               (* T(value=v), [e] being T() *)
| XText (s : string) | XCodes (l : list N)       (* texts, the second by code points *)
| XInt (z : Z) | XBool (b : bool) | XNone
| XIdx (a i : tx)                                (* a[i] *)
| XSlice (a : tx) (lo hi : option Z)             (* a[lo:hi] *)
| XDo (f : string) (a : tx)                      (* f(a), or a.f() *)
| XHas (a : tx) (x : string)                     (* a['x'].hasValue() *)
| XOp (o : string) (a b : tx)                    (* ==, in, %, <, and, or *)
| XNot (a : tx)
| XDict (l : list (tx * tx)) | XList (l : list tx)
| XLam (x : string) (b : tx)                     (* lambda x: b *)
| XApp (f a : tx).                               (* f(a), f a value *)

(** Statements. *)
Inductive ts :=
| TSet (x : string) (e : tx)
| TDecode (x y : string) (s t : tx) (open : bool) (more : option tx)
    (* x, y = der_decoder(s, asn1Spec=t, decodeOpenTypes=open, openTypes=more) *)
| TAssert (e : tx)                               (* assertTrue(e); the other assertions in terms of it *)
| TRaises (e : tx)                               (* assertRaises(error.PyAsn1Error, …), for the call [e] *)
| TExpr (e : tx)
| TFor (x : string) (e : tx) (b : list ts)
| TCall (x : string) (args : list (string * tx)) (b : list ts) (e : tx)
    (* x = f(…), f a function of the method: parameters and arguments, body, what it returns *)
| TIf (e : tx) (a b : list ts)
| TWhile (e : tx) (b : list ts)
| TUpdate (x : string) (e : tx)                  (* x.update(e) *)
| TAppend (x : string) (e : tx)                  (* x.append(e) *)
| TPut (x : string) (i e : tx).                  (* x[i] = e *)

(** A test method: its name, the modules its file imports, the body of setUp and its own. *)
Record program := mkP { p_test : string; p_imports : list string; p_body : list ts }.
