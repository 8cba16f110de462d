(** pyasn1_modules/rfc8360.py, printed by tools/py2coq.py.  Every statement is
    preceded by its line number in that file. *)
From Verif Require Import Py.Syntax.
From Coq Require Import List String ZArith NArith.
Import ListNotations.
Open Scope string_scope.
Open Scope Z_scope.

Definition src : module := [
  (16%N, SFrom "pyasn1.type" [("univ", "univ")]);
  (18%N, SFrom "pyasn1_modules" [("rfc3779", "rfc3779")]);
  (19%N, SFrom "pyasn1_modules" [("rfc5280", "rfc5280")]);
  (24%N, set "id_pe_ipAddrBlocks_v2" (call (univ "ObjectIdentifier") [EStr "1.3.6.1.5.5.7.1.28"]));
  (26%N, set "IPAddrBlocks" (qual "rfc3779" "IPAddrBlocks"));
  (31%N, set "id_pe_autonomousSysIds_v2" (call (univ "ObjectIdentifier") [EStr "1.3.6.1.5.5.7.1.29"]));
  (33%N, set "ASIdentifiers" (qual "rfc3779" "ASIdentifiers"));
  (39%N, set "_certificateExtensionsMapUpdate" (EDict [(EName "id_pe_ipAddrBlocks_v2", new "IPAddrBlocks"); (EName "id_pe_autonomousSysIds_v2", new "ASIdentifiers")]));
  (44%N, SExpr (call (EAttr (qual "rfc5280" "certificateExtensionsMap") "update") [EName "_certificateExtensionsMapUpdate"]))
].
