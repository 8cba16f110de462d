(** pyasn1_modules/rfc8520.py, printed by tools/py2coq.py.  Every statement is
    preceded by its line number in that file. *)
From Verif Require Import Py.Syntax.
From Coq Require Import List String ZArith NArith.
Import ListNotations.
Open Scope string_scope.
Open Scope Z_scope.

Definition src : module := [
  (17%N, SFrom "pyasn1.type" [("char", "char")]);
  (18%N, SFrom "pyasn1.type" [("univ", "univ")]);
  (20%N, SFrom "pyasn1_modules" [("rfc5280", "rfc5280")]);
  (21%N, SFrom "pyasn1_modules" [("rfc5652", "rfc5652")]);
  (26%N, set "id_pe_mud_url" (call (univ "ObjectIdentifier") [EStr "1.3.6.1.5.5.7.1.25"]));
  (28%N, SClass "MUDURLSyntax" (chr "IA5String") [SPass]);
  (34%N, set "id_pe_mudsigner" (call (univ "ObjectIdentifier") [EStr "1.3.6.1.5.5.7.1.30"]));
  (36%N, SClass "MUDsignerSyntax" (qual "rfc5280" "Name") [SPass]);
  (42%N, set "id_ct_mudtype" (call (univ "ObjectIdentifier") [EStr "1.2.840.113549.1.9.16.1.41"]));
  (48%N, set "_certificateExtensionsMapUpdate" (EDict [(EName "id_pe_mud_url", new "MUDURLSyntax"); (EName "id_pe_mudsigner", new "MUDsignerSyntax")]));
  (53%N, SExpr (call (EAttr (qual "rfc5280" "certificateExtensionsMap") "update") [EName "_certificateExtensionsMapUpdate"]));
  (59%N, set "_cmsContentTypesMapUpdate" (EDict [(EName "id_ct_mudtype", call0 (univ "OctetString"))]));
  (63%N, SExpr (call (EAttr (qual "rfc5652" "cmsContentTypesMap") "update") [EName "_cmsContentTypesMapUpdate"]))
].
