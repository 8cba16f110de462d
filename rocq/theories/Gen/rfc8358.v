(** pyasn1_modules/rfc8358.py, printed by tools/py2coq.py.  Every statement is
    preceded by its line number in that file. *)
From Verif Require Import Py.Syntax.
From Coq Require Import List String ZArith NArith.
Import ListNotations.
Open Scope string_scope.
Open Scope Z_scope.

Definition src : module := [
  (15%N, SFrom "pyasn1.type" [("univ", "univ")]);
  (17%N, SFrom "pyasn1_modules" [("rfc5652", "rfc5652")]);
  (20%N, set "id_ct" (call (univ "ObjectIdentifier") [EStr "1.2.840.113549.1.9.16.1"]));
  (22%N, set "id_ct_asciiTextWithCRLF" (EBin OAdd (EName "id_ct") (ETuple [EInt 27])));
  (24%N, set "id_ct_epub" (EBin OAdd (EName "id_ct") (ETuple [EInt 39])));
  (26%N, set "id_ct_htmlWithCRLF" (EBin OAdd (EName "id_ct") (ETuple [EInt 38])));
  (28%N, set "id_ct_pdf" (EBin OAdd (EName "id_ct") (ETuple [EInt 29])));
  (30%N, set "id_ct_postscript" (EBin OAdd (EName "id_ct") (ETuple [EInt 30])));
  (32%N, set "id_ct_utf8TextWithCRLF" (EBin OAdd (EName "id_ct") (ETuple [EInt 37])));
  (34%N, set "id_ct_xml" (EBin OAdd (EName "id_ct") (ETuple [EInt 28])));
  (40%N, set "_cmsContentTypesMapUpdate" (EDict [(EName "id_ct_asciiTextWithCRLF", call0 (univ "OctetString")); (EName "id_ct_epub", call0 (univ "OctetString")); (EName "id_ct_htmlWithCRLF", call0 (univ "OctetString")); (EName "id_ct_pdf", call0 (univ "OctetString")); (EName "id_ct_postscript", call0 (univ "OctetString")); (EName "id_ct_utf8TextWithCRLF", call0 (univ "OctetString")); (EName "id_ct_xml", call0 (univ "OctetString"))]));
  (50%N, SExpr (call (EAttr (qual "rfc5652" "cmsContentTypesMap") "update") [EName "_cmsContentTypesMapUpdate"]))
].
