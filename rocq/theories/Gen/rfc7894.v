(** pyasn1_modules/rfc7894.py, printed by tools/py2coq.py.  Every statement is
    preceded by its line number in that file. *)
From Verif Require Import Py.Syntax.
From Coq Require Import List String ZArith NArith.
Import ListNotations.
Open Scope string_scope.
Open Scope Z_scope.

Definition src : module := [
  (15%N, SFrom "pyasn1.type" [("char", "char")]);
  (16%N, SFrom "pyasn1.type" [("constraint", "constraint")]);
  (17%N, SFrom "pyasn1.type" [("namedtype", "namedtype")]);
  (18%N, SFrom "pyasn1.type" [("univ", "univ")]);
  (20%N, SFrom "pyasn1_modules" [("rfc5652", "rfc5652")]);
  (21%N, SFrom "pyasn1_modules" [("rfc6402", "rfc6402")]);
  (22%N, SFrom "pyasn1_modules" [("rfc7191", "rfc7191")]);
  (28%N, set "Attribute" (qual "rfc7191" "SingleAttribute"));
  (33%N, SClass "DirectoryString" (univ "Choice") [SPass]);
  (36%N, seta "DirectoryString" "componentType" (nts [nt "teletexString" (withspec (call0 (chr "TeletexString")) (sizec (EInt 1) (EInt 255))); nt "printableString" (withspec (call0 (chr "PrintableString")) (sizec (EInt 1) (EInt 255))); nt "universalString" (withspec (call0 (chr "UniversalString")) (sizec (EInt 1) (EInt 255))); nt "utf8String" (withspec (call0 (chr "UTF8String")) (sizec (EInt 1) (EInt 255))); nt "bmpString" (withspec (call0 (chr "BMPString")) (sizec (EInt 1) (EInt 255)))]));
  (52%N, set "id_aa_otpChallenge" (call (univ "ObjectIdentifier") [EStr "1.2.840.113549.1.9.16.2.56"]));
  (54%N, set "ub_aa_otpChallenge" (call (univ "Integer") [EInt 255]));
  (56%N, set "otpChallenge" (new "Attribute"));
  (57%N, SAssign [ESub (EName "otpChallenge") (EStr "attrType")] (EName "id_aa_otpChallenge"));
  (58%N, SAssign [ESub (ESub (EName "otpChallenge") (EStr "attrValues")) (EInt 0)] (new "DirectoryString"));
  (63%N, set "id_aa_revocationChallenge" (call (univ "ObjectIdentifier") [EStr "1.2.840.113549.1.9.16.2.57"]));
  (65%N, set "ub_aa_revocationChallenge" (call (univ "Integer") [EInt 255]));
  (67%N, set "revocationChallenge" (new "Attribute"));
  (68%N, SAssign [ESub (EName "revocationChallenge") (EStr "attrType")] (EName "id_aa_revocationChallenge"));
  (69%N, SAssign [ESub (ESub (EName "revocationChallenge") (EStr "attrValues")) (EInt 0)] (new "DirectoryString"));
  (74%N, set "id_aa_estIdentityLinking" (call (univ "ObjectIdentifier") [EStr "1.2.840.113549.1.9.16.2.58"]));
  (76%N, set "ub_aa_est_identity_linking" (call (univ "Integer") [EInt 255]));
  (78%N, set "estIdentityLinking" (new "Attribute"));
  (79%N, SAssign [ESub (EName "estIdentityLinking") (EStr "attrType")] (EName "id_aa_estIdentityLinking"));
  (80%N, SAssign [ESub (ESub (EName "estIdentityLinking") (EStr "attrValues")) (EInt 0)] (new "DirectoryString"));
  (86%N, set "_cmcControlAttributesMapUpdate" (EDict [(EName "id_aa_otpChallenge", new "DirectoryString"); (EName "id_aa_revocationChallenge", new "DirectoryString"); (EName "id_aa_estIdentityLinking", new "DirectoryString")]));
  (92%N, SExpr (call (EAttr (qual "rfc6402" "cmcControlAttributesMap") "update") [EName "_cmcControlAttributesMapUpdate"]))
].
