(** pyasn1_modules/rfc3560.py, printed by tools/py2coq.py.  Every statement is
    preceded by its line number in that file. *)
From Verif Require Import Py.Syntax.
From Coq Require Import List String ZArith NArith.
Import ListNotations.
Open Scope string_scope.
Open Scope Z_scope.

Definition src : module := [
  (19%N, SFrom "pyasn1_modules" [("rfc4055", "rfc4055")]);
  (21%N, set "id_sha1" (qual "rfc4055" "id_sha1"));
  (23%N, set "id_sha256" (qual "rfc4055" "id_sha256"));
  (25%N, set "id_sha384" (qual "rfc4055" "id_sha384"));
  (27%N, set "id_sha512" (qual "rfc4055" "id_sha512"));
  (29%N, set "id_mgf1" (qual "rfc4055" "id_mgf1"));
  (31%N, set "rsaEncryption" (qual "rfc4055" "rsaEncryption"));
  (33%N, set "id_RSAES_OAEP" (qual "rfc4055" "id_RSAES_OAEP"));
  (35%N, set "id_pSpecified" (qual "rfc4055" "id_pSpecified"));
  (37%N, set "sha1Identifier" (qual "rfc4055" "sha1Identifier"));
  (39%N, set "sha256Identifier" (qual "rfc4055" "sha256Identifier"));
  (41%N, set "sha384Identifier" (qual "rfc4055" "sha384Identifier"));
  (43%N, set "sha512Identifier" (qual "rfc4055" "sha512Identifier"));
  (45%N, set "mgf1SHA1Identifier" (qual "rfc4055" "mgf1SHA1Identifier"));
  (47%N, set "mgf1SHA256Identifier" (qual "rfc4055" "mgf1SHA256Identifier"));
  (49%N, set "mgf1SHA384Identifier" (qual "rfc4055" "mgf1SHA384Identifier"));
  (51%N, set "mgf1SHA512Identifier" (qual "rfc4055" "mgf1SHA512Identifier"));
  (53%N, set "pSpecifiedEmptyIdentifier" (qual "rfc4055" "pSpecifiedEmptyIdentifier"));
  (56%N, SClass "RSAES_OAEP_params" (qual "rfc4055" "RSAES_OAEP_params") [SPass]);
  (60%N, set "rSAES_OAEP_Default_Params" (new "RSAES_OAEP_params"));
  (62%N, set "rSAES_OAEP_Default_Identifier" (qual "rfc4055" "rSAES_OAEP_Default_Identifier"));
  (64%N, set "rSAES_OAEP_SHA256_Params" (qual "rfc4055" "rSAES_OAEP_SHA256_Params"));
  (66%N, set "rSAES_OAEP_SHA256_Identifier" (qual "rfc4055" "rSAES_OAEP_SHA256_Identifier"));
  (68%N, set "rSAES_OAEP_SHA384_Params" (qual "rfc4055" "rSAES_OAEP_SHA384_Params"));
  (70%N, set "rSAES_OAEP_SHA384_Identifier" (qual "rfc4055" "rSAES_OAEP_SHA384_Identifier"));
  (72%N, set "rSAES_OAEP_SHA512_Params" (qual "rfc4055" "rSAES_OAEP_SHA512_Params"));
  (74%N, set "rSAES_OAEP_SHA512_Identifier" (qual "rfc4055" "rSAES_OAEP_SHA512_Identifier"))
].
