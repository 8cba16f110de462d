(** Generated by tools/scripts2coq.py from tools/ocspclient.py. *)
From Coq Require Import List String ZArith.
From Verif Require Import Tools.ScriptLang Tools.ScriptTop.
Import ListNotations.
Open Scope string_scope.
Open Scope Z_scope.
Open Scope list_scope.

(** tools/ocspclient.py *)
Definition ocspclient_py : list top :=
  [TStmt (PImport "hashlib");
   TStmt (PImport "sys");
   TImport "urllib2" "urllib.request" "urllib2";
   TStmt (PFrom "pyasn1.codec.der" ["decoder"]);
   TStmt (PFrom "pyasn1.codec.der" ["encoder"]);
   TStmt (PFrom "pyasn1.type" ["univ"]);
   TStmt (PFrom "pyasn1_modules" ["rfc2560"]);
   TStmt (PFrom "pyasn1_modules" ["rfc2459"]);
   TStmt (PFrom "pyasn1_modules" ["pem"]);
   TStmt (PAssign ["sha1oid"] (XCall (XAttr (XName "univ") "ObjectIdentifier") [(XTuple [(XInt 1); (XInt 3); (XInt 14); (XInt 3); (XInt 2); (XInt 26)])] []));
   TClass "ValueOnlyBitStringEncoder" (XAttr (XAttr (XName "encoder") "encoder") "BitStringEncoder")
     [PDef "encodeTag" [("self", None)] (Some "args")
        [PReturn (XStr "")];
      PDef "encodeLength" [("self", None)] (Some "args")
        [PReturn (XStr "")];
      PDef "encodeValue" [] (Some "args")
        [PAssign ["substrate"; "isConstructed"] (XCall (XAttr (XAttr (XAttr (XName "encoder") "encoder") "BitStringEncoder") "encodeValue") [(XCall (XName "*") [(XName "args")] [])] []);
         PReturn (XTuple [(XSub (XName "substrate") (XCall (XName "slice") [(XInt 1); XNone] [])); (XName "isConstructed")])];
      PDef "__call__" [("self", None); ("bitStringValue", None)] None
        [PReturn (XCall (XAttr (XName "self") "encode") [XNone; (XName "bitStringValue")] [("defMode", XTrue); ("maxChunkSize", (XInt 0))])]];
   TStmt (PAssign ["valueOnlyBitStringEncoder"] (XCall (XName "ValueOnlyBitStringEncoder") [] []));
   TStmt (PDef "mkOcspRequest" [("issuerCert", None); ("userCert", None)] None
       [PAssign ["issuerTbsCertificate"] (XCall (XAttr (XName "issuerCert") "getComponentByName") [(XStr "tbsCertificate")] []);
        PAssign ["issuerSubject"] (XCall (XAttr (XName "issuerTbsCertificate") "getComponentByName") [(XStr "subject")] []);
        PAssign ["userTbsCertificate"] (XCall (XAttr (XName "userCert") "getComponentByName") [(XStr "tbsCertificate")] []);
        PAssign ["userIssuer"] (XCall (XAttr (XName "userTbsCertificate") "getComponentByName") [(XStr "issuer")] []);
        PAssert (XCmp "==" (XName "issuerSubject") (XName "userIssuer"));
        PAssign ["userIssuerHash"] (XCall (XAttr (XCall (XAttr (XName "hashlib") "sha1") [(XCall (XAttr (XName "encoder") "encode") [(XName "userIssuer")] [])] []) "digest") [] []);
        PAssign ["issuerSubjectPublicKey"] (XCall (XAttr (XCall (XAttr (XName "issuerTbsCertificate") "getComponentByName") [(XStr "subjectPublicKeyInfo")] []) "getComponentByName") [(XStr "subjectPublicKey")] []);
        PAssign ["issuerKeyHash"] (XCall (XAttr (XCall (XAttr (XName "hashlib") "sha1") [(XCall (XName "valueOnlyBitStringEncoder") [(XName "issuerSubjectPublicKey")] [])] []) "digest") [] []);
        PAssign ["userSerialNumber"] (XCall (XAttr (XName "userTbsCertificate") "getComponentByName") [(XStr "serialNumber")] []);
        PAssign ["request"] (XCall (XAttr (XName "rfc2560") "Request") [] []);
        PAssign ["reqCert"] (XCall (XAttr (XCall (XAttr (XName "request") "setComponentByName") [(XStr "reqCert")] []) "getComponentByName") [(XStr "reqCert")] []);
        PAssign ["hashAlgorithm"] (XCall (XAttr (XCall (XAttr (XName "reqCert") "setComponentByName") [(XStr "hashAlgorithm")] []) "getComponentByName") [(XStr "hashAlgorithm")] []);
        PExpr (XCall (XAttr (XName "hashAlgorithm") "setComponentByName") [(XStr "algorithm"); (XName "sha1oid")] []);
        PExpr (XCall (XAttr (XName "reqCert") "setComponentByName") [(XStr "issuerNameHash"); (XName "userIssuerHash")] []);
        PExpr (XCall (XAttr (XName "reqCert") "setComponentByName") [(XStr "issuerKeyHash"); (XName "issuerKeyHash")] []);
        PExpr (XCall (XAttr (XName "reqCert") "setComponentByName") [(XStr "serialNumber"); (XName "userSerialNumber")] []);
        PAssign ["ocspRequest"] (XCall (XAttr (XName "rfc2560") "OCSPRequest") [] []);
        PAssign ["tbsRequest"] (XCall (XAttr (XCall (XAttr (XName "ocspRequest") "setComponentByName") [(XStr "tbsRequest")] []) "getComponentByName") [(XStr "tbsRequest")] []);
        PExpr (XCall (XAttr (XName "tbsRequest") "setComponentByName") [(XStr "version"); (XStr "v1")] []);
        PAssign ["requestList"] (XCall (XAttr (XCall (XAttr (XName "tbsRequest") "setComponentByName") [(XStr "requestList")] []) "getComponentByName") [(XStr "requestList")] []);
        PExpr (XCall (XAttr (XName "requestList") "setComponentByPosition") [(XInt 0); (XName "request")] []);
        PReturn (XName "ocspRequest")]);
   TStmt (PDef "parseOcspResponse" [("ocspResponse", None)] None
       [PAssign ["responseStatus"] (XCall (XAttr (XName "ocspResponse") "getComponentByName") [(XStr "responseStatus")] []);
        PAssert (XCmp "==" (XName "responseStatus") (XCall (XAttr (XName "rfc2560") "OCSPResponseStatus") [(XStr "successful")] []));
        PAssign ["responseBytes"] (XCall (XAttr (XName "ocspResponse") "getComponentByName") [(XStr "responseBytes")] []);
        PAssign ["responseType"] (XCall (XAttr (XName "responseBytes") "getComponentByName") [(XStr "responseType")] []);
        PAssert (XCmp "==" (XName "responseType") (XAttr (XName "rfc2560") "id_pkix_ocsp_basic"));
        PAssign ["response"] (XCall (XAttr (XName "responseBytes") "getComponentByName") [(XStr "response")] []);
        PAssign ["basicOCSPResponse"; "_"] (XCall (XAttr (XName "decoder") "decode") [(XName "response")] [("asn1Spec", (XCall (XAttr (XName "rfc2560") "BasicOCSPResponse") [] []))]);
        PAssign ["tbsResponseData"] (XCall (XAttr (XName "basicOCSPResponse") "getComponentByName") [(XStr "tbsResponseData")] []);
        PAssign ["response0"] (XCall (XAttr (XCall (XAttr (XName "tbsResponseData") "getComponentByName") [(XStr "responses")] []) "getComponentByPosition") [(XInt 0)] []);
        PReturn (XTuple [(XCall (XAttr (XName "tbsResponseData") "getComponentByName") [(XStr "producedAt")] []); (XCall (XAttr (XName "response0") "getComponentByName") [(XStr "certID")] []); (XCall (XAttr (XCall (XAttr (XName "response0") "getComponentByName") [(XStr "certStatus")] []) "getName") [] []); (XCall (XAttr (XName "response0") "getComponentByName") [(XStr "thisUpdate")] [])])]);
   TStmt (PIf (XCmp "!=" (XCall (XName "len") [(XAttr (XName "sys") "argv")] []) (XInt 2))
       [PExpr (XCall (XName "print") [(XMod (XStr "Usage:
$ cat CACertificate.pem userCertificate.pem | %s <ocsp-responder-url>") (XSub (XAttr (XName "sys") "argv") (XInt 0)))] []);
        PExpr (XCall (XAttr (XName "sys") "exit") [(XNeg (XInt 1))] [])]
       [PAssign ["ocspUrl"] (XSub (XAttr (XName "sys") "argv") (XInt 1))]);
   TStmt (PAssign ["issuerCert"; "_"] (XCall (XAttr (XName "decoder") "decode") [(XSub (XCall (XAttr (XName "pem") "readPemBlocksFromFile") [(XAttr (XName "sys") "stdin"); (XTuple [(XStr "-----BEGIN CERTIFICATE-----"); (XStr "-----END CERTIFICATE-----")])] []) (XInt 1))] [("asn1Spec", (XCall (XAttr (XName "rfc2459") "Certificate") [] []))]));
   TStmt (PAssign ["userCert"; "_"] (XCall (XAttr (XName "decoder") "decode") [(XSub (XCall (XAttr (XName "pem") "readPemBlocksFromFile") [(XAttr (XName "sys") "stdin"); (XTuple [(XStr "-----BEGIN CERTIFICATE-----"); (XStr "-----END CERTIFICATE-----")])] []) (XInt 1))] [("asn1Spec", (XCall (XAttr (XName "rfc2459") "Certificate") [] []))]));
   TStmt (PAssign ["ocspReq"] (XCall (XName "mkOcspRequest") [(XName "issuerCert"); (XName "userCert")] []));
   TStmt (PAssign ["httpReq"] (XCall (XAttr (XName "urllib2") "Request") [(XName "ocspUrl"); (XCall (XAttr (XName "encoder") "encode") [(XName "ocspReq")] []); (XDict [((XStr "Content-Type"), (XStr "application/ocsp-request"))])] []));
   TStmt (PAssign ["httpRsp"] (XCall (XAttr (XCall (XAttr (XName "urllib2") "urlopen") [(XName "httpReq")] []) "read") [] []));
   TStmt (PAssign ["ocspRsp"; "_"] (XCall (XAttr (XName "decoder") "decode") [(XName "httpRsp")] [("asn1Spec", (XCall (XAttr (XName "rfc2560") "OCSPResponse") [] []))]));
   TStmt (PAssign ["producedAt"; "certId"; "certStatus"; "thisUpdate"] (XCall (XName "parseOcspResponse") [(XName "ocspRsp")] []));
   TStmt (PExpr (XCall (XName "print") [(XMod (XStr "Certificate ID %s is %s at %s till %s
") (XTuple [(XCall (XAttr (XName "certId") "getComponentByName") [(XStr "serialNumber")] []); (XName "certStatus"); (XName "producedAt"); (XName "thisUpdate")]))] []))].
